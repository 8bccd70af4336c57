(** C110: decisions to pay coins of the treasury are carried out completely or not at all. *)
From Verif Require Import Base OMap OMapLemmas Assets PollModel PollSpec FundsModel MemberModel MemberSpec Msgs ControllerModel ControllerSpec
  TreasuryModel EnterpriseModel OutpostsModel WorldModel WorldSpec WorldExamples LiveSpec EndSpec RipeSpec PurseSpec OrderSpec FacadeSpec BallotSpec RecountSpec MajoritySpec MajorityCases
  GrantSpec GrantFacts GrantCases.

(** A proposal that has passed and asks for nothing but coins of the treasury: if the bank agrees to all its payments, one after the other, all of them are made; if it refuses one, none is made. Then the deposit is handed over. The execution succeeds exactly if that can be done. *)
Theorem C110_all_or_nothing : forall X (Out : outside X) A w0 ts w e s id p pl total ab y w',
  new_dao A w0 -> tr_admin (w_treasury w0) = a_controller A -> free_calls Out -> w = world_run Out A w0 ts -> lasting w -> treasury_kept A w ->
  ripe Out A w e s id p pl total -> final_status pl total = Passed ab y -> Forall grant (pi_actions p) ->
  let j := judged A w e s id p pl total (Passed ab y) in
  let due := grants_paid Out A e (pi_actions p) (note j (a_controller A) (run_order A id)) in
  due <> Err EGas ->
  (exists gas d, go Out A gas w e (JMsg s (ask_resolution A id)) = Ok (w', d)) <->
  exists k, go Out A k (all_or_nothing due j) e (JSubs (a_controller A) (handed A p (Passed ab y))) = Ok (w', None).
Proof. exact grant_decision. Qed.
Print Assumptions C110_all_or_nothing.

Example C110_payday_nonvacuous : exists p pl w', let w := world_run idle dao_at (dao false) payday in let e := clock 1100 in
  new_dao dao_at (dao false) /\ tr_admin (w_treasury (dao false)) = a_controller dao_at /\ free_calls idle /\ lasting w /\ treasury_kept dao_at w /\
  ripe idle dao_at w e 12 1 p pl 100 /\ final_status pl 100 = Passed 0 60 /\ pi_actions p = wages /\ Forall grant wages /\
  grants_paid idle dao_at e (pi_actions p) (note (judged dao_at w e 12 1 p pl 100 (Passed 0 60)) 3 (run_order dao_at 1)) <> Err EGas /\
  go idle dao_at 60 w e (JMsg 12 (ask_resolution dao_at 1)) = Ok (w', None) /\
  paid_from 4 w = [] /\ paid_from 4 w' = [BankSend 97 [(70, 8)]; BankSend 97 [(71, 3)]; BankSend 98 [(70, 5)]].
Proof. exact payday_case. Qed.

(** If they are made, they are on record, in the order of the proposal and each once, and nothing else of the DAO has changed. *)
Theorem C110_payments_exact : forall X (Out : outside X) A e l,
  forall w w2, grants_paid Out A e l w = Ok w2 ->
  w2 = mk_world (w_enterprise w) (w_ctl w) (w_gov w) (w_member w) (w_council w) (w_funds w) (w_treasury w) (w_outposts w)
    (rev (flat_map (payments A) l) ++ w_log w) (w_upgraded w) (w_ext w2).
Proof. exact grants_exact. Qed.
Print Assumptions C110_payments_exact.

Example C110_record_nonvacuous : exists w w2, grants_paid idle dao_at (clock 1100) wages w = Ok w2 /\
  w_log w2 = rev [(3, WasmExecute 4 (ToTreasury (TrSpend 97 [(Native 70, 8); (Native 71, 3)])) []); (4, BankSend 97 [(70, 8)]); (4, BankSend 97 [(71, 3)]);
                  (3, WasmExecute 4 (ToTreasury (TrSpend 98 [(Native 70, 5)])) []); (4, BankSend 98 [(70, 5)])] ++ w_log w.
Proof. exact record_case. Qed.

(** So a group that weighs enough at the end of the vote has coins paid, whatever the others say and whatever happens after the end. *)
Theorem C110_majority_pays : forall X (Out : outside X) A birth w0 before later id ends p pl pl' us e s w'',
  new_dao A w0 -> tr_admin (w_treasury w0) = a_controller A -> free_calls Out -> created_by birth (w_member w0) -> created_by birth (w_council w0) -> timely birth (before ++ later) ->
  let w := world_run Out A w0 before in let w' := world_run Out A w0 (before ++ later) in
  lasting w -> lasting w' -> calm A w' -> treasury_kept A w' ->
  closing w General id ends -> oget (g_polls (w_gov w)) id = Some pl -> seconds_before ends before -> all_after ends later ->
  stand_for A w id [Yes] us -> winning w pl us ->
  oget (ct_proposals (w_ctl w')) id = Some p -> pi_executed_at p = None -> oget (g_polls (w_gov w')) id = Some pl' ->
  ends <= e_time e -> restricted_by Out A w' (a_enterprise A) s = Ok false ->
  Forall grant (pi_actions p) ->
  let v := Passed 0 (support A w id Yes) in let j := judged A w' e s id p pl' (weight_now w General) v in
  let due := grants_paid Out A e (pi_actions p) (note j (a_controller A) (run_order A id)) in
  due <> Err EGas ->
  (exists gas d, go Out A gas w' e (JMsg s (ask_resolution A id)) = Ok (w'', d)) <->
  exists k, go Out A k (all_or_nothing due j) e (JSubs (a_controller A) (handed A p v)) = Ok (w'', None).
Proof. exact grant_majority. Qed.
Print Assumptions C110_majority_pays.

Example C110_majority_nonvacuous : exists p, let w := runs payday in let w' := world_run idle dao_at (dao false) (payday ++ turned) in
  new_dao dao_at (dao false) /\ tr_admin (w_treasury (dao false)) = a_controller dao_at /\ free_calls idle /\ created_by (50 * NANOS) (w_member (dao false)) /\ created_by (50 * NANOS) (w_council (dao false)) /\
  timely (50 * NANOS) (payday ++ turned) /\ lasting w /\ lasting w' /\ calm dao_at w' /\ treasury_kept dao_at w' /\
  closing w General 1 (1100 * NANOS) /\ oget (g_polls (w_gov w)) 1 = Some (open_poll_of payday) /\
  seconds_before (1100 * NANOS) payday /\ all_after (1100 * NANOS) turned /\
  stand_for dao_at w 1 [Yes] [11] /\ winning w (open_poll_of payday) [11] /\
  oget (ct_proposals (w_ctl w')) 1 = Some p /\ pi_executed_at p = None /\ oget (g_polls (w_gov w')) 1 = Some (open_poll_of payday) /\
  restricted_by idle dao_at w' 1 13 = Ok false /\ pi_actions p = wages /\ Forall grant wages /\
  grants_paid idle dao_at (clock 1200) (pi_actions p) (note (judged dao_at w' (clock 1200) 13 1 p (open_poll_of payday) (weight_now w General) (Passed 0 (support dao_at w 1 Yes))) 3 (run_order dao_at 1)) <> Err EGas.
Proof. exact payday_majority_case. Qed.

(** Payments that the bank would make are not always made: two that could be made are not, since one between them is refused; the proposal is marked as executed all the same. *)
Theorem C110_each_refuted : exists ts p pl w', let w := world_run without_71 dao_at (dao false) ts in let e := clock 1100 in
  new_dao dao_at (dao false) /\ tr_admin (w_treasury (dao false)) = a_controller dao_at /\ free_calls without_71 /\ lasting w /\ treasury_kept dao_at w /\
  ripe without_71 dao_at w e 12 1 p pl 100 /\ final_status pl 100 = Passed 0 60 /\
  pi_actions p = [PRequestFunding None 97 [(Native 70, 8); (Native 71, 3)]; PRequestFunding None 98 [(Native 70, 5)]] /\
  go without_71 dao_at 60 w e (JMsg 12 (ask_resolution dao_at 1)) = Ok (w', None) /\
  option_map p_status (oget (g_polls (w_gov w')) 1) = Some (Passed 0 60) /\ option_map pi_executed_at (oget (ct_proposals (w_ctl w')) 1) = Some (Some e) /\
  paid_from 4 w' = [].
Proof. exact payments_refuted. Qed.
Print Assumptions C110_each_refuted.
