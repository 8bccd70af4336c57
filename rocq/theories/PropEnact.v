(** C104: decisions about the rules and the description take effect. *)
From Verif Require Import Base OMap OMapLemmas Assets PollModel PollSpec FundsModel MemberModel MemberSpec Msgs ControllerModel ControllerSpec
  TreasuryModel EnterpriseModel OutpostsModel WorldModel WorldSpec WorldExamples LiveSpec EndSpec RipeSpec PurseSpec OrderSpec SettingSpec BallotSpec RecountSpec MajoritySpec MajorityCases
  EnactSpec EnactFacts EnactCases.

(** The rules every DAO is created with are in order for its type. *)
Theorem C104_created_fit : forall X (w : world X) e a g council weights treasuries,
  ctl_instantiate e a (en_type (w_enterprise w)) g council weights treasuries = Ok (w_ctl w) -> rules_fit w.
Proof. exact created_fit. Qed.
Print Assumptions C104_created_fit.

Example C104_created_nonvacuous : ctl_instantiate (clock 50) 1 (en_type (w_enterprise (dao false))) (w_config false) (Some w_councillors) [] None = Ok (w_ctl (dao false)).
Proof. exact created_case. Qed.

(** A proposal that has passed and says nothing but how to change the description and the rules is executed completely: whatever was decided since it was made, the DAO is then the one with these changes and no other, and the deposit is handed over. If that can be done, the execution succeeds. *)
Theorem C104_decision_exact : forall X (Out : outside X) A w0 ts w e s id p pl total ab y w',
  new_dao A w0 -> rules_fit w0 -> free_calls Out -> w = world_run Out A w0 ts -> lasting w ->
  ripe Out A w e s id p pl total -> final_status pl total = Passed ab y -> Forall house (pi_actions p) ->
  let now := enacted A (judged A w e s id p pl total (Passed ab y)) id (pi_actions p) in
  (exists gas d, go Out A gas w e (JMsg s (ask_resolution A id)) = Ok (w', d)) <->
  exists k, go Out A k now e (JSubs (a_controller A) (handed A p (Passed ab y))) = Ok (w', None).
Proof. exact decision_exact. Qed.
Print Assumptions C104_decision_exact.

(** Without a deposit the execution always succeeds, with that one result. *)
Theorem C104_decision_takes_effect : forall X (Out : outside X) A w0 ts w e s id p pl total ab y,
  new_dao A w0 -> rules_fit w0 -> free_calls Out -> w = world_run Out A w0 ts -> lasting w ->
  ripe Out A w e s id p pl total -> final_status pl total = Passed ab y -> Forall house (pi_actions p) -> pi_deposit p = None ->
  let now := enacted A (judged A w e s id p pl total (Passed ab y)) id (pi_actions p) in
  (exists gas d, go Out A gas w e (JMsg s (ask_resolution A id)) = Ok (now, d)) /\
  (forall gas w' d, go Out A gas w e (JMsg s (ask_resolution A id)) = Ok (w', d) -> w' = now).
Proof. exact decision_takes_effect. Qed.
Print Assumptions C104_decision_takes_effect.

Example C104_effect_nonvacuous : exists p pl, let w := world_run idle dao_at (dao false) council_reform in
  new_dao dao_at (dao false) /\ rules_fit (dao false) /\ free_calls idle /\ lasting w /\ ripe idle dao_at w (clock 112) 12 1 p pl 3 /\
  final_status pl 3 = Passed 0 2 /\ pi_actions p = [PUpdateMetadata new_name] /\ Forall house (pi_actions p) /\ pi_deposit p = None.
Proof. exact council_reform_case. Qed.

(** With a deposit in coins, paying it back is all that is added. *)
Theorem C104_decision_with_coins : forall X (Out : outside X) A w0 ts w e s id p pl total ab y who denom n gas w' d,
  new_dao A w0 -> rules_fit w0 -> free_calls Out -> w = world_run Out A w0 ts -> lasting w ->
  ripe Out A w e s id p pl total -> final_status pl total = Passed ab y -> Forall house (pi_actions p) ->
  pi_deposit p = Some (mk_deposit who (DDenom denom n)) ->
  go Out A gas w e (JMsg s (ask_resolution A id)) = Ok (w', d) ->
  exists x, w' = set_ext (note (enacted A (judged A w e s id p pl total (Passed ab y)) id (pi_actions p)) (a_controller A) (BankSend who [(denom, n)])) x.
Proof. exact decision_with_coins. Qed.
Print Assumptions C104_decision_with_coins.

Example C104_coins_nonvacuous : exists p pl gas w' d, let w := world_run idle dao_at (dao false) reform in let e := clock 1100 in
  new_dao dao_at (dao false) /\ rules_fit (dao false) /\ free_calls idle /\ lasting w /\ ripe idle dao_at w e 12 1 p pl 100 /\
  final_status pl 100 = Passed 0 60 /\ pi_actions p = new_rules /\ Forall house (pi_actions p) /\ pi_deposit p = Some (mk_deposit 11 (DDenom 70 25)) /\
  go idle dao_at gas w e (JMsg 12 (ask_resolution dao_at 1)) = Ok (w', d) /\
  config_then (w_ctl w) = (percent 30, percent 50, None, 1000) /\ config_then (w_ctl w') = (percent 45, percent 50, Some (percent 20), 500) /\
  md_name (en_metadata (w_enterprise w)) = 100 /\ md_name (en_metadata (w_enterprise w')) = 13.
Proof. exact reform_case. Qed.

(** So a group that weighs enough at the end of the vote changes the rules, whatever the others say and whatever happens after the end. *)
Theorem C104_majority_decides : forall X (Out : outside X) A birth w0 before later id ends p pl pl' us e s w'',
  new_dao A w0 -> rules_fit w0 -> free_calls Out -> created_by birth (w_member w0) -> created_by birth (w_council w0) -> timely birth (before ++ later) ->
  let w := world_run Out A w0 before in let w' := world_run Out A w0 (before ++ later) in
  lasting w -> lasting w' -> calm A w' ->
  closing w General id ends -> oget (g_polls (w_gov w)) id = Some pl -> seconds_before ends before -> all_after ends later ->
  stand_for A w id [Yes] us -> winning w pl us ->
  oget (ct_proposals (w_ctl w')) id = Some p -> pi_executed_at p = None -> oget (g_polls (w_gov w')) id = Some pl' ->
  ends <= e_time e -> restricted_by Out A w' (a_enterprise A) s = Ok false ->
  Forall house (pi_actions p) ->
  let v := Passed 0 (support A w id Yes) in let now := enacted A (judged A w' e s id p pl' (weight_now w General) v) id (pi_actions p) in
  ((exists gas d, go Out A gas w' e (JMsg s (ask_resolution A id)) = Ok (w'', d)) <->
   exists k, go Out A k now e (JSubs (a_controller A) (handed A p v)) = Ok (w'', None)) /\
  ct_config (w_ctl now) = fold_left ruled (pi_actions p) (ct_config (w_ctl w')) /\
  en_metadata (w_enterprise now) = fold_left renamed (renames (pi_actions p)) (en_metadata (w_enterprise w')).
Proof. exact majority_decides. Qed.
Print Assumptions C104_majority_decides.

Example C104_majority_nonvacuous : exists p, let w' := world_run idle dao_at (dao false) (reform ++ turned) in
  new_dao dao_at (dao false) /\ rules_fit (dao false) /\ free_calls idle /\ created_by (50 * NANOS) (w_member (dao false)) /\ created_by (50 * NANOS) (w_council (dao false)) /\
  timely (50 * NANOS) (reform ++ turned) /\ lasting (runs reform) /\ lasting w' /\ calm dao_at w' /\
  closing (runs reform) General 1 (1100 * NANOS) /\ oget (g_polls (w_gov (runs reform))) 1 = Some (open_poll_of reform) /\
  seconds_before (1100 * NANOS) reform /\ all_after (1100 * NANOS) turned /\
  stand_for dao_at (runs reform) 1 [Yes] [11] /\ winning (runs reform) (open_poll_of reform) [11] /\
  oget (ct_proposals (w_ctl w')) 1 = Some p /\ pi_executed_at p = None /\ oget (g_polls (w_gov w')) 1 = Some (open_poll_of reform) /\
  restricted_by idle dao_at w' 1 13 = Ok false /\ Forall house (pi_actions p).
Proof. exact majority_case. Qed.

(** It is different with the unstaking period. A proposal with a new name and a shorter period passes and is marked as executed, but a longer vote was decided in between: not even the name changes. *)
Theorem C104_period_refuted : exists ts p pl w', let w := world_run idle dao_at (dao false) ts in let e := clock 1102 in
  new_dao dao_at (dao false) /\ rules_fit (dao false) /\ free_calls idle /\ lasting w /\ ripe idle dao_at w e 12 1 p pl 100 /\
  final_status pl 100 = Passed 0 60 /\
  pi_actions p = [PUpdateMetadata new_name; PUpdateGovConfig (mk_gov_config_update NoChange NoChange NoChange NoChange (Change (DTime 1500)) NoChange NoChange)] /\
  go idle dao_at 60 w e (JMsg 12 (ask_resolution dao_at 1)) = Ok (w', None) /\
  option_map p_status (oget (g_polls (w_gov w')) 1) = Some (Passed 0 60) /\ option_map pi_executed_at (oget (ct_proposals (w_ctl w')) 1) = Some (Some e) /\
  en_metadata (w_enterprise w') = en_metadata (w_enterprise (dao false)) /\ md_name (en_metadata (w_enterprise w')) = 100.
Proof. exact period_refuted. Qed.
Print Assumptions C104_period_refuted.
