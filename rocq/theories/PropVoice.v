(** C108: what one more vote does to the outcome. *)
From Verif Require Import Base OMap OMapLemmas Assets PollModel PollSpec FundsModel MemberModel MemberSpec Msgs ControllerModel ControllerSpec
  TreasuryModel EnterpriseModel OutpostsModel WorldModel WorldSpec WorldExamples LiveSpec EndSpec PurseSpec VoteSpec BallotSpec RecountSpec MajoritySpec MajorityCases
  SwaySpec SwayCases VoiceFacts VoiceCases.

(** Take any moment of any history at which somebody votes on a general proposal, and compare how it is decided if this is the last thing that happens before the end, and how it is decided without it, whatever happens after the end in either case. A yes never makes it fail. If there was a quorum without it, a veto of somebody who had not said no never makes it pass, and to abstain for the first time changes nothing. To say the same again changes nothing. *)
Theorem C108_vote_not_regretted : forall X (Out : outside X) A w0 ts w e gas u id o v d pl pl' ql ql',
  new_dao A w0 -> free_calls Out -> w = world_run Out A w0 ts -> timely 0 ts -> lasting w -> calm A w -> last_time ts <= e_time e ->
  u <> 0 -> (4 <= gas)%nat -> clock_has_room w e ->
  go Out A gas w e (JMsg u (voting A General id o)) = Ok (v, d) ->
  held Out A w0 w id pl pl' -> held Out A w0 v id ql ql' ->
  let said := last_ballot A (w_log w) u id in
  (o = Yes -> carried pl' -> carried ql') /\
  (o = Veto -> said <> Some No -> quorate A w id pl -> carried ql' -> carried pl') /\
  (o = Abstain -> said = None -> quorate A w id pl -> p_status ql' = p_status pl') /\
  (said = Some o -> p_status ql' = p_status pl').
Proof. exact vote_not_regretted. Qed.
Print Assumptions C108_vote_not_regretted.

Example C108_vote_nonvacuous : let w := lean_run quiet in
  new_dao dao_at lean_dao /\ free_calls idle /\ timely 0 quiet /\ lasting w /\ calm dao_at w /\ last_time quiet <= e_time (clock 112) /\ clock_has_room w (clock 112) /\
  go idle dao_at 60 w (clock 112) (JMsg 13 (voting dao_at General 1 Abstain)) = Ok (lean_run cool, None) /\
  go idle dao_at 60 w (clock 112) (JMsg 13 (voting dao_at General 1 Veto)) = Ok (lean_run angry, None) /\
  held idle dao_at lean_dao w 1 (lean_open quiet) (lean_poll quiet (Passed 0 50)) /\
  held idle dao_at lean_dao (lean_run cool) 1 (lean_open cool) (lean_poll cool (Passed 0 50)) /\
  held idle dao_at lean_dao (lean_run angry) 1 (lean_open angry) (lean_poll angry (Passed 0 50)) /\
  last_ballot dao_at (w_log w) 13 1 = None /\ quorate dao_at w 1 (lean_open quiet).
Proof. exact voice_case. Qed.
