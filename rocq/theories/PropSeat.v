(** C103: what every vote counts for, in the council too. *)
From Verif Require Import Base OMap OMapLemmas Assets PollModel PollSpec FundsModel MemberModel MemberSpec Msgs ControllerModel ControllerSpec
  TreasuryModel EnterpriseModel OutpostsModel WorldModel WorldSpec WorldExamples LiveSpec EndSpec PurseSpec BallotSpec RecountSpec AccessSpec
  SeatSpec SeatFacts SeatCases.

(** While a proposal of either kind is open, the vote of every account counts what can be recounted from the messages delivered: the weight at the last ballot, in the council or in the DAO, or what the governance contract was told since. *)
Theorem C103_votes_count : forall X (Out : outside X) A w0 ts w now u id pl ends,
  new_dao A w0 -> w = world_run Out A w0 ts -> timely 0 ts -> N.of_nat (length (w_log w)) < 2 ^ 64 -> unforged A w -> last_time ts <= now ->
  oget (g_polls (w_gov w)) id = Some pl -> p_status pl = InProgress ends -> now < ends ->
  option_map v_amount (get_vote (w_gov w) u id) = counts A (weight_of (w_member w0)) (weight_of (w_council w0)) (w_log w) u id.
Proof. exact votes_count. Qed.
Print Assumptions C103_votes_count.

(** A vote in the council counts the weight in the council at the time of the ballot, unless a weight in the DAO was reported since: then it counts that. *)
Theorem C103_council_vote : forall X (Out : outside X) A w0 ts w now u id v,
  new_dao A w0 -> w = world_run Out A w0 ts -> timely 0 ts -> N.of_nat (length (w_log w)) < 2 ^ 64 -> unforged A w -> last_time ts <= now ->
  open_poll w Council id now -> get_vote (w_gov w) u id = Some v ->
  exists later o coins before,
    w_log w = later ++ (u, WasmExecute (a_controller A) (ToController (CCastCouncilVote id o)) coins) :: before /\
    Forall (fun y => ballot A u id y = None) later /\ v_outcome v = outcome_u8 o /\
    v_amount v = match last_told A u later with Some n => n | None => recount (a_council A) u (weight_of (w_council w0) u) before end.
Proof. exact council_vote. Qed.
Print Assumptions C103_council_vote.

(** The tallies are what these votes come to. *)
Theorem C103_backing_counted : forall X (Out : outside X) A w0 ts w now ty id o,
  new_dao A w0 -> w = world_run Out A w0 ts -> timely 0 ts -> N.of_nat (length (w_log w)) < 2 ^ 64 -> unforged A w -> last_time ts <= now ->
  open_poll w ty id now -> tally (w_gov w) id o = backing A w0 w id o.
Proof. exact backing_counted. Qed.
Print Assumptions C103_backing_counted.

Example C103_stake_nonvacuous : let w := after false session_stake in
  new_dao dao_at (dao false) /\ timely 0 session_stake /\ lasting w /\ unforged dao_at w /\ last_time session_stake <= 120 * NANOS /\
  open_poll w Council 1 (120 * NANOS) /\
  (exists v, get_vote (w_gov w) 23 1 = Some v /\ v_amount v = 50) /\
  map (fun u => counts dao_at (weight_of (w_member (dao false))) (weight_of (w_council (dao false))) (w_log w) u 1) [21; 22; 23; 11] =
    [Some 1; Some 1; Some 50; None] /\
  backing dao_at (dao false) w 1 Yes = 2 /\ backing dao_at (dao false) w 1 No = 50.
Proof. exact session_stake_case. Qed.

(** A proposal of either kind that is decided after its end is decided by them, out of the total weight in the council or in the DAO. *)
Theorem C103_backing_decides : forall X (Out : outside X) A birth w0 before later ty id ends pl pl',
  new_dao A w0 -> created_by birth (w_member w0) -> created_by birth (w_council w0) -> timely birth (before ++ later) ->
  let w := world_run Out A w0 before in let w' := world_run Out A w0 (before ++ later) in
  lasting w -> lasting w' -> calm A w' ->
  closing w ty id ends -> oget (g_polls (w_gov w)) id = Some pl -> seconds_before ends before -> all_after ends later ->
  oget (g_polls (w_gov w')) id = Some pl' -> p_status pl' <> InProgress ends ->
  share_fits (all_backing A w0 w id) (weight_now w ty) ->
  verdict (p_quorum pl) (p_threshold pl) (match p_veto_threshold pl with Some v => v | None => p_threshold pl end)
    (backing A w0 w id Yes) (backing A w0 w id No) (backing A w0 w id Abstain) (backing A w0 w id Veto) (weight_now w ty) (p_status pl').
Proof. exact backing_decides. Qed.
Print Assumptions C103_backing_decides.

Example C103_end_nonvacuous : let w := after false session_stake in let w' := after false (session_stake ++ session_later) in
  new_dao dao_at (dao false) /\ created_by (50 * NANOS) (w_member (dao false)) /\ created_by (50 * NANOS) (w_council (dao false)) /\
  timely (50 * NANOS) (session_stake ++ session_later) /\ lasting w /\ lasting w' /\ calm dao_at w' /\
  closing w Council 1 (1100 * NANOS) /\ seconds_before (1100 * NANOS) session_stake /\ all_after (1100 * NANOS) session_later /\
  share_fits (all_backing dao_at (dao false) w 1) (weight_now w Council) /\ weight_now w Council = 3 /\
  backing dao_at (dao false) w 1 Yes = 2 /\ backing dao_at (dao false) w 1 No = 50 /\
  option_map p_status (oget (g_polls (w_gov w')) 1) = Some (Rejected IsRejectingOutcome) /\
  option_map p_status (oget (g_polls (w_gov (after false (session ++ session_later)))) 1) = Some (Passed 0 2).
Proof. exact session_end. Qed.

(** Where everybody in the council weighs one and nothing is reported about those who vote, heads are counted. *)
Theorem C103_heads_counted : forall X (Out : outside X) A w0 ts w now id o,
  new_dao A w0 -> in_place A w0 -> w = world_run Out A w0 ts -> timely 0 ts -> N.of_nat (length (w_log w)) < 2 ^ 64 -> unforged A w -> last_time ts <= now ->
  open_poll w Council id now -> one_each A w0 w ->
  (forall u x, In u (supporters A (w_log w) id o) -> In x (w_log w) -> told A u x = None) ->
  tally (w_gov w) id o = N.of_nat (length (supporters A (w_log w) id o)).
Proof. exact heads_counted. Qed.
Print Assumptions C103_heads_counted.

Example C103_heads_nonvacuous : let w := after false session in
  new_dao dao_at (dao false) /\ in_place dao_at (dao false) /\ timely 0 session /\ lasting w /\ unforged dao_at w /\ last_time session <= 115 * NANOS /\
  open_poll w Council 1 (115 * NANOS) /\ one_each dao_at (dao false) w /\
  supporters dao_at (w_log w) 1 Yes = [22; 21] /\ supporters dao_at (w_log w) 1 No = [23] /\
  (forall u x, In u (supporters dao_at (w_log w) 1 Yes) -> In x (w_log w) -> told dao_at u x = None) /\
  tally (w_gov w) 1 Yes = 2 /\ weight_of (w_member w) 22 = 0.
Proof. exact session_case. Qed.

(** The vote of a councillor who has been replaced goes on counting: one of the three present councillors decides together with a former one. *)
Theorem C103_dismissed_vote_refuted : exists (A : addrs) (w0 : world unit) before later id u v, let w := world_run idle A w0 before in let w' := world_run idle A w0 (before ++ later) in
  new_dao A w0 /\ timely 0 (before ++ later) /\ lasting w' /\ calm A w' /\ open_poll w Council id (last_time before) /\
  weight_of (w_council w) u = 0 /\ get_vote (w_gov w) u id = Some v /\ v_amount v = 1 /\
  total_now (w_council w') = 3 /\ filter (fun x => 0 <? weight_of (w_council w') x) (supporters A (w_log w') id Yes) = [22] /\
  option_map p_status (oget (g_polls (w_gov w')) id) = Some (Passed (outcome_u8 Yes) 2) /\ action_runs A w' id = 1.
Proof. exact dismissed_vote. Qed.
Print Assumptions C103_dismissed_vote_refuted.
