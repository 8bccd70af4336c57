(** Cases of decisions to pay coins of the treasury. *)
From Verif Require Import Base OMap OMapLemmas Assets PollModel PollSpec FundsModel MemberModel MemberSpec Msgs ControllerModel ControllerSpec
  TreasuryModel TreasurySpec EnterpriseModel OutpostsModel WorldModel WorldSpec WorldRun WorldExamples WorldCases LiveSpec LiveCases EndSpec RipeSpec RipeFacts
  PurseSpec PurseCases OrderSpec FacadeSpec BallotSpec RecountSpec MajoritySpec MajorityFacts MajorityCases EnactCases GrantSpec GrantFacts.

(** 11 proposes to pay 97 in two denoms, and 98. *)
Definition wages : list proposal_action := [PRequestFunding None 97 [(Native 70, 8); (Native 71, 3)]; PRequestFunding None 98 [(Native 70, 5)]].
Definition payday : list tx := stakes ++ [propose 100 11 wages; vote_yes 110 11 1].

Lemma wages_fine : Forall grant wages.
Proof. repeat constructor. Qed.

(** As [idle], but there are no coins of denom 71. *)
Definition without_71 : outside unit :=
  mk_outside (fun _ _ _ _ _ _ => Ok (tt, [], None)) (fun _ _ _ _ _ => Ok (tt, []))
    (fun _ _ _ m => match m with BankSend _ [(d, _)] => if d =? 71 then Err EStd else Ok (tt, None) | _ => Ok (tt, None) end) (fun _ _ _ _ => Ok tt)
    (x_signed idle) (x_nft_owner idle) (x_ics721 idle) (x_global idle) (x_versions idle) (x_version idle) (x_creator idle) (x_derive idle) (x_code idle).
Lemma without_free : free_calls without_71.
Proof. intros [] a b. reflexivity. Qed.

Definition paid_from (a : addr) (w : world unit) : list cosmos_msg :=
  flat_map (fun x => match x with (s, BankSend to c) => if s =? a then [BankSend to c] else [] | _ => [] end) (rev (w_log w)).

Definition due_then (Out : outside unit) (w : world unit) : res (world unit) :=
  let p := record w in let pl := its_poll w in
  grants_paid Out dao_at (clock 1100) (pi_actions p) (note (judged dao_at w (clock 1100) 12 1 p pl 100 (Passed 0 60)) 3 (run_order dao_at 1)).

Lemma due_check (r : res (world unit)) : match r with Err EGas => false | _ => true end = true -> r <> Err EGas.
Proof. intros H E. rewrite E in H. discriminate H. Qed.

Lemma payday_case : exists p pl w', let w := world_run idle dao_at (dao false) payday in let e := clock 1100 in
  new_dao dao_at (dao false) /\ tr_admin (w_treasury (dao false)) = a_controller dao_at /\ free_calls idle /\ lasting w /\ treasury_kept dao_at w /\
  ripe idle dao_at w e 12 1 p pl 100 /\ final_status pl 100 = Passed 0 60 /\ pi_actions p = wages /\ Forall grant wages /\
  grants_paid idle dao_at e (pi_actions p) (note (judged dao_at w e 12 1 p pl 100 (Passed 0 60)) 3 (run_order dao_at 1)) <> Err EGas /\
  go idle dao_at 60 w e (JMsg 12 (ask_resolution dao_at 1)) = Ok (w', None) /\
  paid_from 4 w = [] /\ paid_from 4 w' = [BankSend 97 [(70, 8)]; BankSend 97 [(71, 3)]; BankSend 98 [(70, 5)]].
Proof.
  exists (record (after false payday)), (its_poll (after false payday)), (after false (payday ++ [execute 1100 12 1])).
  cbn zeta. split; [exact (start_new _)|]. split; [vm_compute; reflexivity|]. split; [exact idle_free|]. split; [split; vm_compute; reflexivity|].
  split; [apply kept_check; vm_compute; reflexivity|].
  split; [apply ripe_check; vm_compute; reflexivity|]. split; [vm_compute; reflexivity|]. split; [vm_compute; reflexivity|].
  split; [exact wages_fine|]. split; [apply due_check; vm_compute; reflexivity|]. do 2 (split; [vm_compute; reflexivity|]). vm_compute; reflexivity.
Qed.

Lemma record_case : exists w w2, grants_paid idle dao_at (clock 1100) wages w = Ok w2 /\
  w_log w2 = rev [(3, WasmExecute 4 (ToTreasury (TrSpend 97 [(Native 70, 8); (Native 71, 3)])) []); (4, BankSend 97 [(70, 8)]); (4, BankSend 97 [(71, 3)]);
                  (3, WasmExecute 4 (ToTreasury (TrSpend 98 [(Native 70, 5)])) []); (4, BankSend 98 [(70, 5)])] ++ w_log w.
Proof. exists (dao false). eexists. split; [vm_compute; reflexivity|]. vm_compute. reflexivity. Qed.

Lemma payday_majority_case : exists p, let w := runs payday in let w' := world_run idle dao_at (dao false) (payday ++ turned) in
  new_dao dao_at (dao false) /\ tr_admin (w_treasury (dao false)) = a_controller dao_at /\ free_calls idle /\ created_by (50 * NANOS) (w_member (dao false)) /\ created_by (50 * NANOS) (w_council (dao false)) /\
  timely (50 * NANOS) (payday ++ turned) /\ lasting w /\ lasting w' /\ calm dao_at w' /\ treasury_kept dao_at w' /\
  closing w General 1 (1100 * NANOS) /\ oget (g_polls (w_gov w)) 1 = Some (open_poll_of payday) /\
  seconds_before (1100 * NANOS) payday /\ all_after (1100 * NANOS) turned /\
  stand_for dao_at w 1 [Yes] [11] /\ winning w (open_poll_of payday) [11] /\
  oget (ct_proposals (w_ctl w')) 1 = Some p /\ pi_executed_at p = None /\ oget (g_polls (w_gov w')) 1 = Some (open_poll_of payday) /\
  restricted_by idle dao_at w' 1 13 = Ok false /\ pi_actions p = wages /\ Forall grant wages /\
  grants_paid idle dao_at (clock 1200) (pi_actions p) (note (judged dao_at w' (clock 1200) 13 1 p (open_poll_of payday) (weight_now w General) (Passed 0 (support dao_at w 1 Yes))) 3 (run_order dao_at 1)) <> Err EGas.
Proof.
  exists (record (after false (payday ++ turned))).
  cbn zeta. split; [exact (start_new _)|]. split; [vm_compute; reflexivity|]. split; [exact idle_free|]. split; [apply both_created|]. split; [apply both_created|].
  split; [apply timely_check; vm_compute; reflexivity|]. split; [split; vm_compute; reflexivity|]. split; [split; vm_compute; reflexivity|].
  split; [apply calm_check; vm_compute; reflexivity|]. split; [apply kept_check; vm_compute; reflexivity|].
  split; [apply (closing_check _ (runs payday) 1 (1100 * NANOS) (open_poll_of payday)); vm_compute; reflexivity|].
  split; [vm_compute; reflexivity|]. split; [repeat constructor|]. split; [repeat (constructor; [vm_compute; discriminate|]); constructor|].
  split; [apply (stand_check _ dao_at (runs payday) 1 Yes [11]); [alone|vm_compute; reflexivity|left; reflexivity]|].
  split; [apply (winning_check _ (runs payday) (open_poll_of payday) [11] 60 100); vm_compute; reflexivity|].
  do 5 (split; [vm_compute; reflexivity|]). split; [exact wages_fine|]. apply due_check; vm_compute; reflexivity.
Qed.

Lemma payments_refuted : exists ts p pl w', let w := world_run without_71 dao_at (dao false) ts in let e := clock 1100 in
  new_dao dao_at (dao false) /\ tr_admin (w_treasury (dao false)) = a_controller dao_at /\ free_calls without_71 /\ lasting w /\ treasury_kept dao_at w /\
  ripe without_71 dao_at w e 12 1 p pl 100 /\ final_status pl 100 = Passed 0 60 /\
  pi_actions p = [PRequestFunding None 97 [(Native 70, 8); (Native 71, 3)]; PRequestFunding None 98 [(Native 70, 5)]] /\
  go without_71 dao_at 60 w e (JMsg 12 (ask_resolution dao_at 1)) = Ok (w', None) /\
  option_map p_status (oget (g_polls (w_gov w')) 1) = Some (Passed 0 60) /\ option_map pi_executed_at (oget (ct_proposals (w_ctl w')) 1) = Some (Some e) /\
  paid_from 4 w' = [].
Proof.
  exists payday, (record (world_run without_71 dao_at (dao false) payday)), (its_poll (world_run without_71 dao_at (dao false) payday)), (world_run without_71 dao_at (dao false) (payday ++ [execute 1100 12 1])).
  cbn zeta. split; [exact (start_new _)|]. split; [vm_compute; reflexivity|]. split; [exact without_free|]. split; [split; vm_compute; reflexivity|].
  split; [apply kept_check; vm_compute; reflexivity|].
  split; [apply ripe_check; vm_compute; reflexivity|]. do 5 (split; [vm_compute; reflexivity|]). vm_compute; reflexivity.
Qed.
