(** C94: the votes that count are the voters' own last word. *)
From Verif Require Import Base OMap OMapLemmas Assets PollModel PollSpec FundsModel MemberModel MemberSpec Msgs ControllerModel ControllerSpec
  TreasuryModel EnterpriseModel OutpostsModel WorldModel WorldSpec WorldExamples LiveSpec EndSpec PurseSpec BallotSpec BallotFacts BallotCases.

(** What is recorded for anybody, on any proposal, is what they themselves told the controller last; who has said nothing has no vote. *)
Theorem C94_own_ballots : forall X (Out : outside X) A w0 ts w u id,
  new_dao A w0 -> w = world_run Out A w0 ts -> N.of_nat (length (w_log w)) < 2 ^ 64 -> unforged A w ->
  chosen w u id = option_map outcome_u8 (last_ballot A (w_log w) u id).
Proof. exact own_ballots. Qed.
Print Assumptions C94_own_ballots.

Example C94_own_nonvacuous : let w := after false switch in let w' := after false (switch ++ switch_later) in
  new_dao dao_at (dao false) /\ created_by (50 * NANOS) (w_member (dao false)) /\ created_by (50 * NANOS) (w_council (dao false)) /\
  timely (50 * NANOS) (switch ++ switch_later) /\ lasting w /\ lasting w' /\ calm dao_at w' /\ unforged dao_at w' /\
  closing w General 1 (1100 * NANOS) /\ seconds_before (1100 * NANOS) switch /\ all_after (1100 * NANOS) switch_later /\
  map (fun u => last_ballot dao_at (w_log w) u 1) [11; 12; 13] = [Some Yes; Some No; None] /\
  support dao_at w 1 Yes = 60 /\ support dao_at w 1 No = 80 /\ weight_now w General = 140 /\
  option_map p_status (oget (g_polls (w_gov w')) 1) = Some (Rejected IsRejectingOutcome).
Proof. exact switch_case. Qed.

(** While a general vote is open, the result for an outcome is the present weight of those whose last word it was. *)
Theorem C94_support_counted : forall X (Out : outside X) A w0 ts w now id pl o,
  new_dao A w0 -> w = world_run Out A w0 ts -> timely 0 ts -> lasting w -> calm A w -> last_time ts <= now ->
  open_poll w General id now -> oget (g_polls (w_gov w)) id = Some pl ->
  tally (w_gov w) id o = support A w id o /\ ogetN (p_results pl) (outcome_u8 o) = support A w id o.
Proof. exact support_counted. Qed.
Print Assumptions C94_support_counted.

Example C94_counted_nonvacuous : let w := after false switch in
  new_dao dao_at (dao false) /\ timely 0 switch /\ lasting w /\ calm dao_at w /\ last_time switch <= 120 * NANOS /\ open_poll w General 1 (120 * NANOS) /\
  support dao_at w 1 Yes = 60 /\ support dao_at w 1 No = 80.
Proof. exact open_case. Qed.

(** And when it is over, those weights decide it, out of the whole weight there was. *)
Theorem C94_ballots_decide : forall X (Out : outside X) A birth w0 before later id ends pl pl',
  new_dao A w0 -> created_by birth (w_member w0) -> created_by birth (w_council w0) -> timely birth (before ++ later) ->
  let w := world_run Out A w0 before in let w' := world_run Out A w0 (before ++ later) in
  lasting w -> lasting w' -> calm A w' ->
  closing w General id ends -> oget (g_polls (w_gov w)) id = Some pl -> seconds_before ends before -> all_after ends later ->
  oget (g_polls (w_gov w')) id = Some pl' -> p_status pl' <> InProgress ends ->
  verdict (p_quorum pl) (p_threshold pl) (match p_veto_threshold pl with Some v => v | None => p_threshold pl end)
    (support A w id Yes) (support A w id No) (support A w id Abstain) (support A w id Veto) (weight_now w General) (p_status pl').
Proof. exact ballots_decide. Qed.
Print Assumptions C94_ballots_decide.

Example C94_decide_nonvacuous : let w := after false switch in let w' := after false (switch ++ switch_later) in
  new_dao dao_at (dao false) /\ created_by (50 * NANOS) (w_member (dao false)) /\ created_by (50 * NANOS) (w_council (dao false)) /\
  timely (50 * NANOS) (switch ++ switch_later) /\ lasting w /\ lasting w' /\ calm dao_at w' /\ unforged dao_at w' /\
  closing w General 1 (1100 * NANOS) /\ seconds_before (1100 * NANOS) switch /\ all_after (1100 * NANOS) switch_later /\
  map (fun u => last_ballot dao_at (w_log w) u 1) [11; 12; 13] = [Some Yes; Some No; None] /\
  support dao_at w 1 Yes = 60 /\ support dao_at w 1 No = 80 /\ weight_now w General = 140 /\
  option_map p_status (oget (g_polls (w_gov w')) 1) = Some (Rejected IsRejectingOutcome).
Proof. exact switch_case. Qed.

(** The condition on the messages of proposals is needed: a proposal can cast votes in the name of others. *)
Theorem C94_forged_vote_refuted : exists (w0 : world unit) ts, let w := world_run idle dao_at w0 ts in
  new_dao dao_at w0 /\ timely 0 ts /\ lasting w /\
  (forall x, In x (w_log w) -> fst x <> 13) /\ last_ballot dao_at (w_log w) 13 1 = None /\
  chosen w 13 1 = Some (outcome_u8 Yes) /\ option_map (fun v => v_amount v) (get_vote (w_gov w) 13 1) = Some 5000.
Proof. exact forged_vote. Qed.
Print Assumptions C94_forged_vote_refuted.
