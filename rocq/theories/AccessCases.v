(** Cases of calls that are in order and of calls that are not. *)
From Verif Require Import Base OMap OMapLemmas Assets PollModel PollSpec FundsModel MemberModel MemberSpec Msgs ControllerModel ControllerSpec
  TreasuryModel EnterpriseModel OutpostsModel WorldModel WorldSpec WorldExamples WorldCases LedgerSpec LedgerExamples
  LiveSpec PurseSpec PurseCases OrderSpec RecountSpec AccessSpec.

(** 11 votes in a DAO that spends from its treasury; nobody else may say such things. *)
Lemma spent_access : new_dao dao_at (purse_dao false) /\ in_place dao_at (purse_dao false) /\
  (exists l, sent_after (w_log spent) 11 (WasmExecute 3 (ToController (CCastVote 1 Yes)) []) l /\ recount 7 11 (weight_of (w_member (purse_dao false)) 11) l = 60) /\
  (exists l, sent_after (w_log spent) 3 (WasmExecute 4 (ToTreasury (TrSpend 99 [(Native 70, 10); (Cw20 80, 5)])) []) l /\ treasurer dao_at l = 3) /\
  world_tx chain dao_at spent (to_ctl 2000 13 [] (CCastVote 1 Yes)) = Err EUnauthorized /\
  world_tx chain dao_at spent (mk_tx 60 (clock 2000) 11 (WasmExecute 4 (ToTreasury (TrSpend 99 [(Native 70, 10)])) [])) = Err EUnauthorized /\
  world_tx chain dao_at spent (mk_tx 60 (clock 2000) 11 (WasmExecute 2 (ToGovernance (GCastVote 1 Yes 11 1000)) [])) = Err EUnauthorized.
Proof.
  split; [apply purse_new|]. split; [constructor; vm_compute; reflexivity|].
  split; [exists (skipn 22 (w_log spent)); split; [exists (firstn 21 (w_log spent)); vm_compute; reflexivity|vm_compute; reflexivity]|].
  split; [exists (skipn 15 (w_log spent)); split; [exists (firstn 14 (w_log spent)); vm_compute; reflexivity|vm_compute; reflexivity]|].
  split; [vm_compute; reflexivity|]. split; vm_compute; reflexivity.
Qed.

(** A DAO with a text, which 666 has not signed. *)
Definition text_dao : world unit :=
  let w := dao false in
  mk_world (mk_enterprise 77 9 30 (mk_metadata 100 None None None None None None) (version 1 0 0) DaoDenom true (Some (wiring_of dao_at (Some 40))))
    (w_ctl w) (w_gov w) (w_member w) (w_council w) (w_funds w) (w_treasury w) (w_outposts w) [] false tt.
Lemma text_new : new_dao dao_at text_dao.
Proof. destruct (start_new false) as [H1 H2 H3 H4 H5 H6 H7 H8 H9 H10]. split; try assumption. exists (Some 40). reflexivity. Qed.

(** 666 tries to stake, another stakes for them, they try to propose; the others go about their business. *)
Definition stake_for (t : N) (s u amount : N) : tx := mk_tx 60 (clock t) s (WasmExecute 7 (ToMembership (DenomMsg (DStake (Some u)))) [(70, amount)]).
Definition text_life : list tx :=
  stakes ++ [stake 70 666 50; stake_for 71 11 666 5; stake_for 72 666 12 5; propose 100 11 [PUpdateMinimumWeight 5]; propose 101 666 [PUpdateMinimumWeight 50];
             vote_yes 110 11 1; execute 1101 666 1; execute 1102 12 1].
Definition text_world : world unit := world_run idle dao_at text_dao text_life.

Definition drops_text (en : addr) (x : addr * cosmos_msg) : bool :=
  match snd x with WasmExecute to (ToEnterprise EnRemoveAttestation) _ => to =? en | _ => false end.
Lemma text_check {X} A (w : world X) : existsb (drops_text (a_enterprise A)) (w_log w) = false -> text_kept A w.
Proof.
  intros E s coins H. rewrite (proj2 (existsb_exists (drops_text (a_enterprise A)) (w_log w))) in E; [discriminate|]. eexists. split; [exact H|]. cbn. apply N.eqb_refl.
Qed.
Lemma never_666 : never_signs idle 666.
Proof. intros x a. discriminate. Qed.

Lemma text_case : new_dao dao_at text_dao /\ in_place dao_at text_dao /\ has_text text_dao /\ text_kept dao_at text_world /\ never_signs idle 666 /\
  (forall q, w_member text_dao <> MMultisig q) /\
  weight_of (w_member text_world) 11 = 60 /\ weight_of (w_member text_world) 12 = 45 /\ weight_of (w_member text_world) 666 = 0 /\
  f_min (w_funds text_world) = 5 /\
  world_tx idle dao_at text_dao (stake 70 666 50) = Err ERestricted /\ world_tx idle dao_at text_dao (stake_for 71 11 666 5) = Err ERestricted /\
  is_ok (world_tx idle dao_at text_dao (stake 70 11 50)) = true.
Proof.
  split; [apply text_new|]. split; [constructor; vm_compute; reflexivity|]. split; [exists (wiring_of dao_at (Some 40)), 40; split; reflexivity|].
  split; [apply text_check; vm_compute; reflexivity|]. split; [exact never_666|]. split; [intros q; vm_compute; discriminate|].
  do 6 (split; [vm_compute; reflexivity|]). vm_compute. reflexivity.
Qed.

(** Once the text is dropped, 666 can join. *)
Definition drop_text : list tx :=
  stakes ++ [propose 100 11 [PExecuteMsgs [Some (WasmExecute 1 (ToEnterprise EnRemoveAttestation) [])]]; vote_yes 110 11 1; execute 1102 12 1; stake 1200 666 50].
Lemma dropped_text : exists X (Out : outside X) A w0 ts u, let w := world_run Out A w0 ts in
  new_dao A w0 /\ in_place A w0 /\ has_text w0 /\ never_signs Out u /\ (forall q, w_member w0 <> MMultisig q) /\
  ~ text_kept A w /\ weight_of (w_member w) u = 50.
Proof.
  exists unit, idle, dao_at, text_dao, drop_text, 666. split; [apply text_new|]. split; [constructor; vm_compute; reflexivity|].
  split; [exists (wiring_of dao_at (Some 40)), 40; split; reflexivity|]. split; [exact never_666|]. split; [intros q; vm_compute; discriminate|].
  split; [|vm_compute; reflexivity]. intros K. apply (K 3 []). 
  apply (nth_error_In _ 5). vm_compute. reflexivity.
Qed.
