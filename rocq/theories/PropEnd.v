(** C86: a vote is decided at its end. *)
From Verif Require Import Base OMap OMapLemmas Assets PollModel PollSpec FundsModel MemberModel MemberSpec Msgs ControllerModel ControllerSpec
  TreasuryModel EnterpriseModel OutpostsModel WorldModel WorldSpec WorldExamples LiveSpec EndSpec EndFacts EndCases.

(** From the end of a vote on, whatever happens, the votes, what they count, the terms of the poll and the weight that counts as the total stay as they are; votes on general proposals count the weights their voters had at the end. *)
Theorem C86_votes_final : forall X (Out : outside X) A birth w0 before later ty id ends pl,
  new_dao A w0 -> created_by birth (w_member w0) -> created_by birth (w_council w0) -> timely birth (before ++ later) ->
  lasting (world_run Out A w0 (before ++ later)) -> calm A (world_run Out A w0 (before ++ later)) ->
  let w := world_run Out A w0 before in let w' := world_run Out A w0 (before ++ later) in
  closing w ty id ends -> oget (g_polls (w_gov w)) id = Some pl -> all_before ends before -> all_after ends later ->
  (forall u, get_vote (w_gov w') u id = get_vote (w_gov w) u id) /\
  (exists pl', oget (g_polls (w_gov w')) id = Some pl' /\ status_only pl pl') /\
  weight_then w' ty ends = weight_then w ty ends /\
  (ty = General -> forall u v, get_vote (w_gov w') u id = Some v -> v_amount v = weight_of (w_member w) u).
Proof. exact votes_final. Qed.
Print Assumptions C86_votes_final.

Example C86_nonvacuous : let w := after false until_end in let w' := after false (until_end ++ after_end) in
  new_dao dao_at (dao false) /\ created_by (50 * NANOS) (w_member (dao false)) /\ created_by (50 * NANOS) (w_council (dao false)) /\
  timely (50 * NANOS) (until_end ++ after_end) /\ lasting w' /\ calm dao_at w' /\
  closing w General 1 (1100 * NANOS) /\ all_before (1100 * NANOS) until_end /\ all_after (1100 * NANOS) after_end /\ seconds_before (1100 * NANOS) until_end /\
  turnout (w_gov w) 1 = 80 /\ weight_then w General (1100 * NANOS) = 140 /\ share_fits 80 140 /\
  option_map p_status (oget (g_polls (w_gov w')) 1) = Some (Passed 0 80) /\ weight_of (w_member w') 12 = 0.
Proof. exact ends_case. Qed.

(** If the poll is ended, its status is what the voting rule says about the votes and weights at the end, *)
Theorem C86_ended_by_the_rule : forall X (Out : outside X) A birth w0 before later ty id ends pl pl',
  new_dao A w0 -> created_by birth (w_member w0) -> created_by birth (w_council w0) -> timely birth (before ++ later) ->
  lasting (world_run Out A w0 (before ++ later)) -> calm A (world_run Out A w0 (before ++ later)) ->
  let w := world_run Out A w0 before in let w' := world_run Out A w0 (before ++ later) in
  closing w ty id ends -> oget (g_polls (w_gov w)) id = Some pl -> all_before ends before -> all_after ends later ->
  share_fits (turnout (w_gov w) id) (weight_then w ty ends) ->
  oget (g_polls (w_gov w')) id = Some pl' -> p_status pl' <> InProgress ends ->
  ruled (w_gov w) id pl (weight_then w ty ends) (p_status pl').
Proof. exact ended_ruled. Qed.
Print Assumptions C86_ended_by_the_rule.

(** so there is only one outcome, whatever happens after the end and whenever the proposal is executed. *)
Theorem C86_one_outcome : forall X (Out : outside X) A birth w0 before later1 later2 ty id ends pl1 pl2,
  new_dao A w0 -> created_by birth (w_member w0) -> created_by birth (w_council w0) ->
  timely birth (before ++ later1) -> lasting (world_run Out A w0 (before ++ later1)) -> calm A (world_run Out A w0 (before ++ later1)) ->
  timely birth (before ++ later2) -> lasting (world_run Out A w0 (before ++ later2)) -> calm A (world_run Out A w0 (before ++ later2)) ->
  closing (world_run Out A w0 before) ty id ends -> all_before ends before -> all_after ends later1 -> all_after ends later2 ->
  oget (g_polls (w_gov (world_run Out A w0 (before ++ later1)))) id = Some pl1 -> p_status pl1 <> InProgress ends ->
  oget (g_polls (w_gov (world_run Out A w0 (before ++ later2)))) id = Some pl2 -> p_status pl2 <> InProgress ends ->
  pl1 = pl2.
Proof. exact one_outcome. Qed.
Print Assumptions C86_one_outcome.

(** If nothing happens in the very second of the end, the total is the whole weight there is at the end, and there are not more votes. *)
Theorem C86_whole_weight : forall X (Out : outside X) A birth w0 before ty id ends,
  new_dao A w0 -> created_by birth (w_member w0) -> created_by birth (w_council w0) -> timely birth before ->
  lasting (world_run Out A w0 before) -> calm A (world_run Out A w0 before) ->
  let w := world_run Out A w0 before in
  closing w ty id ends -> seconds_before ends before ->
  weight_then w ty ends = weight_now w ty /\
  (ty = General -> turnout (w_gov w) id <= weight_then w ty ends /\ share_fits (turnout (w_gov w) id) (weight_then w ty ends)).
Proof. exact whole_weight. Qed.
Print Assumptions C86_whole_weight.

(** Otherwise that is false: weight added in that second counts as votes but not in the total, and so decides votes. *)
Theorem C86_late_votes_refuted : exists (w0 : world unit) birth before later ends,
  let w := world_run idle dao_at w0 before in let w' := world_run idle dao_at w0 (before ++ later) in
  new_dao dao_at w0 /\ created_by birth (w_member w0) /\ created_by birth (w_council w0) /\ timely birth (before ++ later) /\ lasting w' /\ calm dao_at w' /\
  closing w General 1 ends /\ all_before ends before /\ all_after ends later /\
  weight_then w General ends < weight_now w General /\
  exists pl pl', oget (g_polls (w_gov w)) 1 = Some pl /\ oget (g_polls (w_gov w')) 1 = Some pl' /\
    ruled (w_gov w) 1 pl (weight_now w General) (Rejected QuorumNotReached) /\ p_status pl' = Passed 0 30.
Proof. exact late_votes. Qed.
Print Assumptions C86_late_votes_refuted.

(** There may be more votes than the total. *)
Example C86_flooded : let w := after false flood in closing w General 1 (1100 * NANOS + half) /\
  all_before (1100 * NANOS + half) flood /\ turnout (w_gov w) 1 = 300 /\ weight_then w General (1100 * NANOS + half) = 100.
Proof. exact flooded. Qed.
