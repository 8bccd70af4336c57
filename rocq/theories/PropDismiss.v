(** C105: decisions about the council take effect. *)
From Verif Require Import Base OMap OMapLemmas Assets PollModel PollSpec FundsModel MemberModel MemberSpec Msgs ControllerModel ControllerSpec
  TreasuryModel EnterpriseModel OutpostsModel WorldModel WorldSpec WorldExamples LiveSpec EndSpec RipeSpec PurseSpec OrderSpec SettingSpec SettingFacts BallotSpec RecountSpec MajoritySpec MajorityCases
  EnactSpec EnactCases DismissSpec DismissFacts DismissCases.

(** Whatever happens, nobody but the controller is told of changes of the council, unless a message had somebody else told. *)
Theorem C105_stays_ready : forall X (Out : outside X) A w0 ts w,
  council_ready A w0 -> w = world_run Out A w0 ts ->
  (forall s h coins, In (s, WasmExecute (a_council A) (ToMembership (MultisigMsg (MAddHook h))) coins) (w_log w) -> h = a_controller A) -> council_ready A w.
Proof. exact stays_ready. Qed.
Print Assumptions C105_stays_ready.

Example C105_ready_nonvacuous : let w := world_run idle dao_at (dao false) replacement in council_ready dao_at (dao false) /\
  (forall s h coins, In (s, WasmExecute (a_council dao_at) (ToMembership (MultisigMsg (MAddHook h))) coins) (w_log w) -> h = a_controller dao_at).
Proof. exact ready_case. Qed.

(** A proposal that has passed and is about nothing but the council, the description and the rules is executed completely: when the deposit has been handed over as well, the execution is done, and if that can be done it succeeds. *)
Theorem C105_internal_decision : forall X (Out : outside X) A w0 ts w e s id p pl total ab y,
  new_dao A w0 -> rules_fit w0 -> free_calls Out -> w = world_run Out A w0 ts -> lasting w -> council_ready A w ->
  ripe Out A w e s id p pl total -> final_status pl total = Passed ab y -> Forall internal (pi_actions p) ->
  exists w2, carried A (judged A w e s id p pl total (Passed ab y)) w2 id (pi_actions p) /\
    forall w', (exists gas d, go Out A gas w e (JMsg s (ask_resolution A id)) = Ok (w', d)) <->
      exists k, go Out A k w2 e (JSubs (a_controller A) (handed A p (Passed ab y))) = Ok (w', None).
Proof. exact internal_decision. Qed.
Print Assumptions C105_internal_decision.

Example C105_decision_nonvacuous : exists p pl gas w' d, let w := world_run idle dao_at (dao false) replacement in let e := clock 1100 in
  new_dao dao_at (dao false) /\ rules_fit (dao false) /\ free_calls idle /\ lasting w /\ council_ready dao_at w /\ ripe idle dao_at w e 12 1 p pl 100 /\
  final_status pl 100 = Passed 0 60 /\ pi_actions p = new_council /\ Forall internal (pi_actions p) /\
  go idle dao_at gas w e (JMsg 12 (ask_resolution dao_at 1)) = Ok (w', d) /\
  map (weight_of (w_council w)) [21; 22; 23; 31] = [1; 1; 1; 0] /\ map (weight_of (w_council w')) [21; 22; 23; 31] = [0; 1; 0; 1] /\ total_now (w_council w') = 2 /\
  ct_council (w_ctl w') = Some (mk_council_config [TUpdateMetadata] (percent 60) (percent 55)) /\ md_name (en_metadata (w_enterprise w')) = 13.
Proof. exact replacement_case. Qed.

(** So a group of members that weighs enough replaces or abolishes the council, whatever councillors and others do: afterwards those named last have one vote each there, nobody else has any, and the powers of the council are those given. *)
Theorem C105_majority_replaces : forall X (Out : outside X) A birth w0 before later id ends p pl pl' us e s past c rest,
  new_dao A w0 -> rules_fit w0 -> free_calls Out -> created_by birth (w_member w0) -> created_by birth (w_council w0) -> timely birth (before ++ later) ->
  let w := world_run Out A w0 before in let w' := world_run Out A w0 (before ++ later) in
  lasting w -> lasting w' -> calm A w' -> council_ready A w' ->
  closing w General id ends -> oget (g_polls (w_gov w)) id = Some pl -> seconds_before ends before -> all_after ends later ->
  stand_for A w id [Yes] us -> winning w pl us ->
  oget (ct_proposals (w_ctl w')) id = Some p -> pi_executed_at p = None -> oget (g_polls (w_gov w')) id = Some pl' ->
  ends <= e_time e -> restricted_by Out A w' (a_enterprise A) s = Ok false ->
  Forall internal (pi_actions p) -> pi_actions p = past ++ PUpdateCouncil c :: rest -> existsb about_council rest = false ->
  let v := Passed 0 (support A w id Yes) in
  exists w2, (forall w'', (exists gas d, go Out A gas w' e (JMsg s (ask_resolution A id)) = Ok (w'', d)) <->
                exists k, go Out A k w2 e (JSubs (a_controller A) (handed A p v)) = Ok (w'', None)) /\
    (forall u, weight_of (w_council w2) u = if existsb (N.eqb u) (named c) then 1 else 0) /\
    ct_council (w_ctl w2) = seated None (PUpdateCouncil c) /\
    carried A (judged A w' e s id p pl' (weight_now w General) v) w2 id (pi_actions p).
Proof. exact majority_replaces. Qed.
Print Assumptions C105_majority_replaces.

Example C105_majority_nonvacuous : exists p, let w' := world_run idle dao_at (dao false) (replacement ++ turned) in
  new_dao dao_at (dao false) /\ rules_fit (dao false) /\ free_calls idle /\ created_by (50 * NANOS) (w_member (dao false)) /\ created_by (50 * NANOS) (w_council (dao false)) /\
  timely (50 * NANOS) (replacement ++ turned) /\ lasting (runs replacement) /\ lasting w' /\ calm dao_at w' /\ council_ready dao_at w' /\
  closing (runs replacement) General 1 (1100 * NANOS) /\ oget (g_polls (w_gov (runs replacement))) 1 = Some (open_poll_of replacement) /\
  seconds_before (1100 * NANOS) replacement /\ all_after (1100 * NANOS) turned /\
  stand_for dao_at (runs replacement) 1 [Yes] [11] /\ winning (runs replacement) (open_poll_of replacement) [11] /\
  oget (ct_proposals (w_ctl w')) 1 = Some p /\ pi_executed_at p = None /\ oget (g_polls (w_gov w')) 1 = Some (open_poll_of replacement) /\
  restricted_by idle dao_at w' 1 13 = Ok false /\ Forall internal (pi_actions p) /\
  pi_actions p = [PUpdateCouncil None; PUpdateMetadata new_name] ++ PUpdateCouncil two :: [] /\ existsb about_council [] = false.
Proof. exact majority_replaces_case. Qed.

(** If somebody else is told of changes and refuses the message, the council cannot be abolished: the proposal has passed and is marked as executed, and everything stays as it was. *)
Theorem C105_hook_refuted : exists ts p pl w', let w := world_run sulking dao_at (dao false) ts in let e := clock 2200 in
  new_dao dao_at (dao false) /\ rules_fit (dao false) /\ free_calls sulking /\ lasting w /\ council_ready dao_at (dao false) /\ ripe sulking dao_at w e 12 2 p pl 100 /\
  final_status pl 100 = Passed 0 60 /\ pi_actions p = [PUpdateCouncil None] /\
  go sulking dao_at 60 w e (JMsg 12 (ask_resolution dao_at 2)) = Ok (w', None) /\
  option_map p_status (oget (g_polls (w_gov w')) 2) = Some (Passed 0 60) /\ option_map pi_executed_at (oget (ct_proposals (w_ctl w')) 2) = Some (Some e) /\
  map (weight_of (w_council w')) [21; 22; 23] = [1; 1; 1] /\ ct_council (w_ctl w') = ct_council (w_ctl (dao false)) /\ ct_council (w_ctl w') <> None.
Proof. exact hook_refuted. Qed.
Print Assumptions C105_hook_refuted.
