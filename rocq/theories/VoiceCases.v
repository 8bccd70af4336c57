(** A case of one more vote. *)
From Verif Require Import Base OMap OMapLemmas Assets PollModel PollSpec FundsModel MemberModel MemberSpec Msgs ControllerModel ControllerSpec
  TreasuryModel EnterpriseModel OutpostsModel WorldModel WorldSpec WorldRun WorldExamples WorldCases LiveSpec LiveCases EndSpec
  PurseSpec VoteSpec BallotSpec BallotFacts BallotCases RecountSpec RecountFacts RecountCases MajoritySpec MajorityFacts MajorityCases SwaySpec SwayFacts SwayCases SpreadSpec SpreadFacts VoiceFacts.

(** 13, who has said nothing so far, abstains, or vetoes. *)
Lemma voice_case : let w := lean_run quiet in
  new_dao dao_at lean_dao /\ free_calls idle /\ timely 0 quiet /\ lasting w /\ calm dao_at w /\ last_time quiet <= e_time (clock 112) /\ clock_has_room w (clock 112) /\
  go idle dao_at 60 w (clock 112) (JMsg 13 (voting dao_at General 1 Abstain)) = Ok (lean_run cool, None) /\
  go idle dao_at 60 w (clock 112) (JMsg 13 (voting dao_at General 1 Veto)) = Ok (lean_run angry, None) /\
  held idle dao_at lean_dao w 1 (lean_open quiet) (lean_poll quiet (Passed 0 50)) /\
  held idle dao_at lean_dao (lean_run cool) 1 (lean_open cool) (lean_poll cool (Passed 0 50)) /\
  held idle dao_at lean_dao (lean_run angry) 1 (lean_open angry) (lean_poll angry (Passed 0 50)) /\
  last_ballot dao_at (w_log w) 13 1 = None /\ quorate dao_at w 1 (lean_open quiet).
Proof.
  cbn zeta. split; [exact lean_new|]. split; [exact idle_free|]. split; [apply timely_check; vm_compute; reflexivity|].
  split; [split; vm_compute; reflexivity|]. split; [apply calm_check; vm_compute; reflexivity|]. split; [vm_compute; discriminate|].
  split; [vm_compute; reflexivity|]. split; [vm_compute; reflexivity|]. split; [vm_compute; reflexivity|].
  split; [exact quiet_held|]. split; [exact cool_held|]. split; [exact angry_held|]. split; [vm_compute; reflexivity|]. apply veto_case.
Qed.
