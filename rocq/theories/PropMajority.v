(** C99: what groups of voters can bring about, whatever the others do. *)
From Verif Require Import Base OMap OMapLemmas Assets PollModel PollSpec FundsModel MemberModel MemberSpec Msgs ControllerModel ControllerSpec
  TreasuryModel EnterpriseModel OutpostsModel WorldModel WorldSpec WorldExamples LiveSpec EndSpec PurseSpec BallotSpec BallotFacts
  BallotCases RecountSpec RecountFacts MajoritySpec MajorityFacts MajorityCases.

(** A group that weighs enough and says yes has its proposal passed, whatever the others say or do not say. *)
Theorem C99_majority_wins : forall X (Out : outside X) A (w0 w : world X) id pl pl' us,
  held Out A w0 w id pl pl' -> stand_for A w id [Yes] us -> winning w pl us -> p_status pl' = Passed 0 (support A w id Yes).
Proof. exact majority_wins. Qed.
Print Assumptions C99_majority_wins.

Example C99_majority_nonvacuous : held idle dao_at (dao false) (runs won) 1 (open_poll_of won) (poll_of won (Passed 0 60)) /\
  stand_for dao_at (runs won) 1 [Yes] [11] /\ winning (runs won) (open_poll_of won) [11].
Proof. exact won_case. Qed.

(** And whatever happens after the end, to weights for instance, anybody can then have it executed. *)
Theorem C99_majority_executes : forall X (Out : outside X) A birth w0 before later id ends p pl pl' us e s w'',
  new_dao A w0 -> free_calls Out -> created_by birth (w_member w0) -> created_by birth (w_council w0) -> timely birth (before ++ later) ->
  let w := world_run Out A w0 before in let w' := world_run Out A w0 (before ++ later) in
  lasting w -> lasting w' -> calm A w' ->
  closing w General id ends -> oget (g_polls (w_gov w)) id = Some pl -> seconds_before ends before -> all_after ends later ->
  stand_for A w id [Yes] us -> winning w pl us ->
  oget (ct_proposals (w_ctl w')) id = Some p -> pi_executed_at p = None -> oget (g_polls (w_gov w')) id = Some pl' ->
  ends <= e_time e -> restricted_by Out A w' (a_enterprise A) s = Ok false ->
  let total := weight_now w General in let v := Passed 0 (support A w id Yes) in
  (exists gas d, go Out A gas w' e (JMsg s (ask_resolution A id)) = Ok (w'', d)) <->
  concluded Out A e id (handed A p v) v (judged A w' e s id p pl' total v) w''.
Proof. exact majority_executes. Qed.
Print Assumptions C99_majority_executes.

Example C99_executes_nonvacuous : let w' := world_run idle dao_at (dao false) (won ++ turned) in
  new_dao dao_at (dao false) /\ free_calls idle /\ created_by (50 * NANOS) (w_member (dao false)) /\ created_by (50 * NANOS) (w_council (dao false)) /\
  timely (50 * NANOS) (won ++ turned) /\ lasting (runs won) /\ lasting w' /\ calm dao_at w' /\
  closing (runs won) General 1 (1100 * NANOS) /\ oget (g_polls (w_gov (runs won))) 1 = Some (open_poll_of won) /\
  seconds_before (1100 * NANOS) won /\ all_after (1100 * NANOS) turned /\
  stand_for dao_at (runs won) 1 [Yes] [11] /\ winning (runs won) (open_poll_of won) [11] /\
  option_map pi_executed_at (oget (ct_proposals (w_ctl w')) 1) = Some None /\ oget (g_polls (w_gov w')) 1 = Some (open_poll_of won) /\
  restricted_by idle dao_at w' 1 13 = Ok false /\ map (weight_of (w_member w')) [11; 12] = [0; 100040].
Proof. exact order_case. Qed.

(** No smaller group can be sure of that. *)
Theorem C99_winning_sharp : forall X (w : world X) pl us,
  let s := power w us in let t := weight_now w General in s <= t -> t <> 0 ->
  (winning w pl us <->
   forall y n a v, s <= y -> y + n + a + v <= t -> verdict (p_quorum pl) (p_threshold pl) (veto_share pl) y n a v t (Passed 0 y)).
Proof. exact winning_sharp. Qed.
Print Assumptions C99_winning_sharp.

Example C99_sharp_nonvacuous : power (runs won) [11] = 60 /\ weight_now (runs won) General = 100 /\ winning (runs won) (open_poll_of won) [11] /\ ~ winning (runs won) (open_poll_of won) [12].
Proof. exact sharp_case. Qed.

(** A group that weighs enough can veto. *)
Theorem C99_vetoes_stop : forall X (Out : outside X) A (w0 w : world X) id pl pl' us,
  held Out A w0 w id pl pl' -> stand_for A w id [Veto] us -> vetoing w pl us -> p_status pl' = Rejected IsVetoOutcome.
Proof. exact vetoes_stop. Qed.
Print Assumptions C99_vetoes_stop.

Example C99_vetoes_nonvacuous : held idle dao_at (dao false) (runs stopped) 1 (open_poll_of stopped) (poll_of stopped (Rejected IsVetoOutcome)) /\
  stand_for dao_at (runs stopped) 1 [Veto] [11] /\ vetoing (runs stopped) (open_poll_of stopped) [11].
Proof. exact stopped_case. Qed.

(** A group without which the threshold is out of reach can have a proposal rejected by saying no or veto. *)
Theorem C99_minority_blocks : forall X (Out : outside X) A (w0 w : world X) id pl pl' us,
  held Out A w0 w id pl pl' -> stand_for A w id [No; Veto] us -> blocking w pl us -> exists r, p_status pl' = Rejected r.
Proof. exact minority_blocks. Qed.
Print Assumptions C99_minority_blocks.

Example C99_blocks_nonvacuous : held idle dao_at (dao false) (runs blocked) 1 (open_poll_of blocked) (poll_of blocked (Rejected IsRejectingOutcome)) /\
  stand_for dao_at (runs blocked) 1 [No; Veto] [11] /\ blocking (runs blocked) (open_poll_of blocked) [11].
Proof. exact blocked_case. Qed.

(** A group without which the quorum is out of reach can do so by silence. *)
Theorem C99_silence_stops : forall X (Out : outside X) A (w0 w : world X) id pl pl' us,
  held Out A w0 w id pl pl' -> silent A w id us -> needed w pl us -> p_status pl' = Rejected QuorumNotReached.
Proof. exact silence_stops. Qed.
Print Assumptions C99_silence_stops.

Example C99_silence_nonvacuous : held idle dao_at (dao false) (runs missed) 1 (open_poll_of missed) (poll_of missed (Rejected QuorumNotReached)) /\
  silent dao_at (runs missed) 1 [11] /\ needed (runs missed) (open_poll_of missed) [11].
Proof. exact missed_case. Qed.
