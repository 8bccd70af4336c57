(** C106: what it does to the outcome that somebody votes otherwise. *)
From Verif Require Import Base OMap OMapLemmas Assets PollModel PollSpec FundsModel MemberModel MemberSpec Msgs ControllerModel ControllerSpec
  TreasuryModel EnterpriseModel OutpostsModel WorldModel WorldSpec WorldExamples LiveSpec EndSpec PurseSpec BallotSpec RecountSpec MajoritySpec MajorityCases
  SwaySpec SwayFacts SwayCases.

(** Compare two general votes under the same rules among members of the same weights. If some say yes in the second who had said something else, or nothing, and the others say the same, then what passed in the first passes in the second. *)
Theorem C106_yes_never_hurts : forall X Y (Out : outside X) (Out' : outside Y) A B (w0 w : world X) (v0 v : world Y) id k pl pl' ql ql',
  held Out A w0 w id pl pl' -> held Out' B v0 v k ql ql' -> same_rules pl ql -> evenly w v ->
  swayed A B w id v k [None; Some No; Some Abstain; Some Veto] Yes -> carried pl' -> carried ql'.
Proof. exact yes_never_hurts. Qed.
Print Assumptions C106_yes_never_hurts.

Example C106_yes_nonvacuous : held idle dao_at lean_dao (lean_run cool) 1 (lean_open cool) (lean_poll cool (Passed 0 50)) /\
  held idle dao_at lean_dao (lean_run warm) 1 (lean_open warm) (lean_poll warm (Passed 0 100)) /\ same_rules (lean_open cool) (lean_open warm) /\
  evenly (lean_run cool) (lean_run warm) /\
  swayed dao_at dao_at (lean_run cool) 1 (lean_run warm) 1 [None; Some No; Some Abstain; Some Veto] Yes /\ carried (lean_poll cool (Passed 0 50)).
Proof. exact yes_case. Qed.

(** If there was a quorum, and some veto who had said yes, had abstained or had said nothing, then what did not pass still does not pass. *)
Theorem C106_veto_never_helps : forall X Y (Out : outside X) (Out' : outside Y) A B (w0 w : world X) (v0 v : world Y) id k pl pl' ql ql',
  held Out A w0 w id pl pl' -> held Out' B v0 v k ql ql' -> same_rules pl ql -> evenly w v ->
  swayed A B w id v k [None; Some Yes; Some Abstain] Veto -> quorate A w id pl -> carried ql' -> carried pl'.
Proof. exact veto_never_helps. Qed.
Print Assumptions C106_veto_never_helps.

Example C106_veto_nonvacuous : held idle dao_at lean_dao (lean_run quiet) 1 (lean_open quiet) (lean_poll quiet (Passed 0 50)) /\
  held idle dao_at lean_dao (lean_run angry) 1 (lean_open angry) (lean_poll angry (Passed 0 50)) /\ same_rules (lean_open quiet) (lean_open angry) /\
  evenly (lean_run quiet) (lean_run angry) /\
  swayed dao_at dao_at (lean_run quiet) 1 (lean_run angry) 1 [None; Some Yes; Some Abstain] Veto /\
  quorate dao_at (lean_run quiet) 1 (lean_open quiet) /\ carried (lean_poll angry (Passed 0 50)).
Proof. exact veto_case. Qed.

(** If there was a quorum, abstaining instead of saying nothing leaves the outcome exactly as it was. *)
Theorem C106_abstaining_is_nothing : forall X Y (Out : outside X) (Out' : outside Y) A B (w0 w : world X) (v0 v : world Y) id k pl pl' ql ql',
  held Out A w0 w id pl pl' -> held Out' B v0 v k ql ql' -> same_rules pl ql -> evenly w v ->
  swayed A B w id v k [None] Abstain -> quorate A w id pl -> p_status ql' = p_status pl'.
Proof. exact abstaining_is_nothing. Qed.
Print Assumptions C106_abstaining_is_nothing.

Example C106_abstaining_nonvacuous : held idle dao_at lean_dao (lean_run quiet) 1 (lean_open quiet) (lean_poll quiet (Passed 0 50)) /\
  held idle dao_at lean_dao (lean_run cool) 1 (lean_open cool) (lean_poll cool (Passed 0 50)) /\ same_rules (lean_open quiet) (lean_open cool) /\
  evenly (lean_run quiet) (lean_run cool) /\
  swayed dao_at dao_at (lean_run quiet) 1 (lean_run cool) 1 [None] Abstain /\ quorate dao_at (lean_run quiet) 1 (lean_open quiet) /\
  map (fun w => last_ballot dao_at (w_log w) 13 1) [lean_run quiet; lean_run cool] = [None; Some Abstain].
Proof. exact abstain_case. Qed.

(** Without a quorum it is otherwise: a no, or even a veto, of somebody who could have kept silent makes the proposal pass. *)
Theorem C106_quorum_refuted : forall o, In o [No; Veto] -> exists w0 w v pl pl' ql ql',
  held idle dao_at w0 w 1 pl pl' /\ held idle dao_at w0 v 1 ql ql' /\ same_rules pl ql /\ evenly w v /\
  swayed dao_at dao_at w 1 v 1 [None] o /\ p_status pl' = Rejected QuorumNotReached /\ carried ql'.
Proof. exact quorum_refuted. Qed.
Print Assumptions C106_quorum_refuted.

(** And with one as well: a no takes away from the share of the vetoes, and makes a vetoed proposal pass. *)
Theorem C106_dilution_refuted : exists w0 w v pl pl' ql ql',
  held idle dao_at w0 w 1 pl pl' /\ held idle dao_at w0 v 1 ql ql' /\ same_rules pl ql /\ evenly w v /\
  swayed dao_at dao_at w 1 v 1 [None] No /\ quorate dao_at w 1 pl /\ p_status pl' = Rejected IsVetoOutcome /\ carried ql'.
Proof. exact dilution_refuted. Qed.
Print Assumptions C106_dilution_refuted.

(** Where less than half is enough for a decision, a veto instead of a no makes the proposal pass that the noes would have stopped. *)
Theorem C106_stronger_refuted : exists w0 w v pl pl' ql ql',
  held idle dao_at w0 w 1 pl pl' /\ held idle dao_at w0 v 1 ql ql' /\ same_rules pl ql /\ evenly w v /\
  swayed dao_at dao_at w 1 v 1 [Some No] Veto /\ quorate dao_at w 1 pl /\ p_status pl' = Rejected IsRejectingOutcome /\ carried ql'.
Proof. exact stronger_refuted. Qed.
Print Assumptions C106_stronger_refuted.
