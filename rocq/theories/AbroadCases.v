(** Cases for what a DAO says to other chains. *)
From Verif Require Import Base OMap OMapLemmas Assets PollModel FundsModel MemberModel Msgs ControllerModel ControllerSpec TreasuryModel EnterpriseModel
  OutpostsModel OutpostsExamples WorldModel WorldSpec WorldExamples WorldCases RewardCases PurseSpec PurseCases OrderSpec AbroadSpec.

(** As [idle], but with channels to other chains. *)
Definition linked : outside unit :=
  mk_outside (fun _ _ _ _ _ _ => Ok (tt, [], None)) (fun _ _ _ _ _ => Ok (tt, [])) (fun _ _ _ _ => Ok (tt, None)) (fun _ _ _ _ => Ok tt)
    (fun _ _ u => Ok (negb (u =? 666))) (fun _ _ _ => Err EStd) (fun _ _ _ => Ok None) (fun _ _ => []) (fun _ _ _ _ => Err EStd)
    (fun _ _ _ => Err EStd) (fun _ _ => Ok 9) derive (fun _ _ => None).

Definition report (t : N) (s : addr) (id made : N) : tx := mk_tx 60 (clock t) s (to_outposts dao_at (OpCallback id (Some made)) []).
(** A vote to deploy on juno; strangers report (refused), the proxy reports twice; a vote to spend there, and one to spend on osmo (refused). *)
Definition voyage : list tx :=
  stakes ++ [propose 100 11 [PDeployTreasury d_juno]; vote_yes 110 11 1; execute 1102 12 1;
    report 1200 66 1 9009; report 1201 (from_proxy to_juno 900) 1 9001; report 1202 (from_proxy to_juno 900) 2 9002;
    mk_tx 60 (clock 1203) 11 (to_outposts dao_at (OpExecute (TrSpend 11 [(Native 7, 50)]) to_juno) []);
    propose 1300 11 [PRequestFunding (Some to_juno) 99 [(Native 7, 5)]]; propose 1301 11 [PRequestFunding (Some to_osmo) 99 [(Native 7, 5)]];
    vote_yes 1310 11 2; vote_yes 1311 11 3; execute 2400 12 2; execute 2401 12 3].
Definition abroad : world unit := world_run linked dao_at (dao false) voyage.
Definition funding : cosmos_msg := parcel to_juno 9001 3300000000000 (WasmExecute 9002 (ToTreasury (TrSpend 99 [(Native 7, 5)])) []) None.

Lemma abroad_case : new_dao dao_at (dao false) /\ outposts_instantiate (a_enterprise dao_at) = Ok (w_outposts (dao false)) /\
  timely 0 voyage /\ lasting abroad /\ calm dao_at abroad /\
  oget (op_proxies (w_outposts abroad)) 70 = Some 9001 /\ oget (op_treasuries (w_outposts abroad)) 70 = Some 9002 /\
  runs dao_at abroad = [2; 1] /\ order_abroad (PRequestFunding (Some to_juno) 99 [(Native 7, 5)]) = Some (TrSpend 99 [(Native 7, 5)], to_juno) /\
  sent_by 5 abroad = [funding;
    parcel to_juno 900 2101000000000 (WasmInstantiate (Some 9001) 802 (InitTreasury 9001 (Some [Native 7]) None)) (Some (report_to dao_at to_juno 2));
    parcel to_juno 900 2002000000000 (WasmInstantiate None 801 (InitProxy 1400052)) (Some (report_to dao_at to_juno 1))] /\
  (exists l, sent_after (w_log abroad) 5 funding ((3, to_outposts dao_at (OpExecute (TrSpend 99 [(Native 7, 5)]) to_juno) []) :: l)).
Proof.
  split; [apply start_new|]. split; [vm_compute; reflexivity|]. split; [apply timely_check; vm_compute; reflexivity|].
  split; [apply lasting_check; vm_compute; reflexivity|]. split; [apply calm_check; vm_compute; reflexivity|].
  split; [vm_compute; reflexivity|]. split; [vm_compute; reflexivity|]. split; [vm_compute; reflexivity|]. split; [reflexivity|].
  split; [vm_compute; reflexivity|].
  exists (skipn 6 (w_log abroad)), (firstn 4 (w_log abroad)). vm_compute. reflexivity.
Qed.
