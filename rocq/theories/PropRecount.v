(** C98: weights and votes can be recounted from what was delivered. *)
From Verif Require Import Base OMap OMapLemmas Assets PollModel PollSpec FundsModel MemberModel MemberSpec Msgs ControllerModel ControllerSpec
  TreasuryModel EnterpriseModel OutpostsModel WorldModel WorldSpec WorldExamples LedgerExamples PassCases RewardCases LiveSpec EndSpec PurseSpec BallotSpec BallotFacts
  BallotCases RecountSpec RecountFacts RecountCases.

(** Everybody weighs, in the DAO and in its council, what the delivered stakes, withdrawals and changes of members make them weigh. *)
Theorem C98_weights_public : forall X (Out : outside X) A w0 ts w u,
  new_dao A w0 -> w = world_run Out A w0 ts ->
  weight_of (w_member w) u = recount (a_membership A) u (weight_of (w_member w0) u) (w_log w) /\
  weight_of (w_council w) u = recount (a_council A) u (weight_of (w_council w0) u) (w_log w).
Proof. exact member_weight_public. Qed.
Print Assumptions C98_weights_public.

Example C98_weights_nonvacuous :
  new_dao dao_at (ledger_dao false) /\ new_dao dao_at (ledger_dao true) /\ new_dao dao_at (dao false) /\ new_dao dao_at fixed_dao /\
  let fixed := world_run idle dao_at fixed_dao reshuffle in let coins := after false switch in
  map (weight_of (w_member token_world)) [11; 12; 13] = map (fun u => recount 7 u 0 (w_log token_world)) [11; 12; 13] /\
  map (weight_of (w_member nft_world)) [11; 12; 13] = map (fun u => recount 7 u 0 (w_log nft_world)) [11; 12; 13] /\
  map (weight_of (w_member coins)) [11; 12; 13] = [60; 80; 0] /\ map (fun u => recount 7 u 0 (w_log coins)) [11; 12; 13] = [60; 80; 0] /\
  map (weight_of (w_member fixed_dao)) [61; 62; 63] = [3; 4; 0] /\ map (weight_of (w_member fixed)) [61; 62; 63] = [0; 1; 9] /\
  map (fun u => recount 7 u (weight_of (w_member fixed_dao) u) (w_log fixed)) [61; 62; 63] = [0; 1; 9] /\
  map (fun u => recount 8 u (weight_of (w_council fixed_dao) u) (w_log fixed)) [21; 22; 61] = [1; 1; 0].
Proof. exact weights_case. Qed.

(** The same between any two moments. *)
Theorem C98_weights_between : forall X (Out : outside X) A w0 before later u,
  new_dao A w0 -> let w := world_run Out A w0 before in let w' := world_run Out A w later in
  exists l, w_log w' = l ++ w_log w /\
    weight_of (w_member w') u = recount (a_membership A) u (weight_of (w_member w) u) l /\
    weight_of (w_council w') u = recount (a_council A) u (weight_of (w_council w) u) l.
Proof. exact weights_recounted. Qed.
Print Assumptions C98_weights_between.

Example C98_between_nonvacuous :
  new_dao dao_at (dao false) /\ (forall m, w_member (dao false) <> MMultisig m) /\
  let w := after false switch in let w' := world_run idle dao_at w leaving in
  w_log w' = firstn (length (w_log w') - length (w_log w)) (w_log w') ++ w_log w /\
  map (weight_of (w_member w)) [11; 12] = [60; 80] /\ map (weight_of (w_member w')) [11; 12] = [35; 80] /\
  map (fun u => lsum (takes_out 7 u) (firstn (length (w_log w') - length (w_log w)) (w_log w'))) [11; 12] = [25; 0].
Proof. exact losses_case. Qed.

(** In a DAO of stakes nobody loses more weight than they themselves took out. *)
Theorem C98_losses_own : forall X (Out : outside X) A w0 before later u,
  new_dao A w0 -> (forall m, w_member w0 <> MMultisig m) ->
  let w := world_run Out A w0 before in let w' := world_run Out A w later in
  exists l, w_log w' = l ++ w_log w /\ weight_of (w_member w) u <= weight_of (w_member w') u + lsum (takes_out (a_membership A) u) l.
Proof. exact losses_are_own. Qed.
Print Assumptions C98_losses_own.

Example C98_losses_nonvacuous :
  new_dao dao_at (dao false) /\ (forall m, w_member (dao false) <> MMultisig m) /\
  let w := after false switch in let w' := world_run idle dao_at w leaving in
  w_log w' = firstn (length (w_log w') - length (w_log w)) (w_log w') ++ w_log w /\
  map (weight_of (w_member w)) [11; 12] = [60; 80] /\ map (weight_of (w_member w')) [11; 12] = [35; 80] /\
  map (fun u => lsum (takes_out 7 u) (firstn (length (w_log w') - length (w_log w)) (w_log w'))) [11; 12] = [25; 0].
Proof. exact losses_case. Qed.

(** The result of an open general vote is what a recount of the delivered messages gives. *)
Theorem C98_votes_public : forall X (Out : outside X) A w0 ts w now id pl o,
  new_dao A w0 -> w = world_run Out A w0 ts -> timely 0 ts -> lasting w -> calm A w -> last_time ts <= now ->
  open_poll w General id now -> oget (g_polls (w_gov w)) id = Some pl ->
  ogetN (p_results pl) (outcome_u8 o) = votes_for A (weight_of (w_member w0)) (w_log w) id o.
Proof. exact votes_recounted. Qed.
Print Assumptions C98_votes_public.

Example C98_votes_nonvacuous : let w := after false switch in
  new_dao dao_at (dao false) /\ timely 0 switch /\ lasting w /\ calm dao_at w /\ last_time switch <= 120 * NANOS /\ open_poll w General 1 (120 * NANOS) /\
  map (votes_for dao_at (weight_of (w_member (dao false))) (w_log w) 1) [Yes; No; Abstain; Veto] = [60; 80; 0; 0].
Proof. exact votes_case. Qed.

(** And its outcome is the verdict on such a recount. *)
Theorem C98_outcome_public : forall X (Out : outside X) A birth w0 before later id ends pl pl' us,
  new_dao A w0 -> created_by birth (w_member w0) -> created_by birth (w_council w0) -> timely birth (before ++ later) ->
  let w := world_run Out A w0 before in let w' := world_run Out A w0 (before ++ later) in
  lasting w -> lasting w' -> calm A w' ->
  closing w General id ends -> oget (g_polls (w_gov w)) id = Some pl -> seconds_before ends before -> all_after ends later ->
  oget (g_polls (w_gov w')) id = Some pl' -> p_status pl' <> InProgress ends ->
  let first := weight_of (w_member w0) in let said := w_log w in roll A first said us ->
  verdict (p_quorum pl) (p_threshold pl) (match p_veto_threshold pl with Some v => v | None => p_threshold pl end)
    (votes_for A first said id Yes) (votes_for A first said id No) (votes_for A first said id Abstain) (votes_for A first said id Veto)
    (all_votes A first said us) (p_status pl').
Proof. exact outcome_recounted. Qed.
Print Assumptions C98_outcome_public.

Example C98_roll_nonvacuous : roll dao_at (weight_of (w_member (dao false))) (w_log (after false switch)) [11; 12] /\
  all_votes dao_at (weight_of (w_member (dao false))) (w_log (after false switch)) [11; 12] = 140.
Proof. exact roll_case. Qed.

(** So whatever else may differ, within the DAO or outside it, before or after the end: the same first weights, the same messages and the same rules give the same outcome. *)
Theorem C98_same_record : forall X Y (Out : outside X) (Out' : outside Y) A (w0 w : world X) (v0 v : world Y) id pl pl' ql ql',
  held Out A w0 w id pl pl' -> held Out' A v0 v id ql ql' ->
  (forall u, weight_of (w_member w0) u = weight_of (w_member v0) u) -> w_log w = w_log v -> same_rules pl ql ->
  p_status pl' = p_status ql'.
Proof. exact same_record. Qed.
Print Assumptions C98_same_record.

Example C98_record_nonvacuous :
  held idle dao_at (dao false) (world_run idle dao_at (dao false) switch) 1 poll_now poll_then /\
  held idle dao_at (dao false) (world_run idle dao_at (dao false) switch) 1 poll_now poll_then /\
  switch_later <> [execute 1500 11 1] /\ same_rules poll_now poll_now.
Proof. exact held_both. Qed.
