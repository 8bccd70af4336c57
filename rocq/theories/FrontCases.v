(** Cases of the front contract. *)
From Verif Require Import Base OMap OMapLemmas Assets PollModel FundsModel MemberModel Msgs ControllerModel TreasuryModel EnterpriseModel OutpostsModel WorldModel
  WorldExamples FacadeModel FrontModel FrontSpec FrontFacts.

(** Facades 901 and 902 at first; then a call, a migration of the first only, a failing one, and one of the second. *)
Definition moved : list front_op :=
  [FExecute 11; FMigrate (Some 911) None; FMigrate (Some 921) (Some 0); FReply 3; FMigrate None (Some 912); FMigrate None None].
Lemma moved_case : front_instantiate 901 902 = Ok (mk_front 901 902) /\
  last_given Old 901 moved 911 /\ last_given New 902 moved 912 /\ front_run (mk_front 901 902) moved = mk_front 911 912.
Proof.
  split; [reflexivity|]. split; [exact (last_addresses 901 902 moved Old)|]. split; [exact (last_addresses 901 902 moved New)|]. reflexivity.
Qed.

(** 31 is a DAO of the old code; the other contracts are those of the example DAO; everybody else answers nothing. *)
Definition others : foreign := mk_foreign (fun a => a =? 31) (fun _ => Err EStd) (fun _ => Err EStd) (fun _ => false).
Definition echo (a : addr) (q : front_query) : res (addr * N * addr * option N) := Ok (a, question q, about q, details q).
Definition looks : answers := seen dao_at others (dao false).

Lemma asked_case :
  leads looks 31 Old 31 /\ leads looks 4 New 1 /\ leads looks 1 New 1 /\
  front_answer echo (mk_front 901 902) looks (QClaims 31 5) = Ok (901, 15, 31, Some 5) /\
  front_answer echo (mk_front 901 902) looks (QReleasableClaims 4 6) = Ok (902, 16, 1, Some 6) /\
  front_answer echo (mk_front 901 902) looks (QClaimAdapted 1) = Ok (902, 31, 1, None) /\
  front_answer echo (mk_front 901 902) looks (QDaoInfo 99) = Err EStd.
Proof.
  split; [apply L_old; reflexivity|]. split; [eapply L_treasury; vm_compute; reflexivity|].
  split. { apply L_enterprise; [reflexivity|intros admin H; vm_compute in H; discriminate|vm_compute; reflexivity]. }
  split; [vm_compute; reflexivity|]. split; [vm_compute; reflexivity|]. split; vm_compute; reflexivity.
Qed.
