(** C107: only weights count in a vote, not who has them, nor over how many accounts they are spread. *)
From Verif Require Import Base OMap OMapLemmas Assets PollModel PollSpec FundsModel MemberModel MemberSpec Msgs ControllerModel ControllerSpec
  TreasuryModel EnterpriseModel OutpostsModel WorldModel WorldSpec WorldExamples LiveSpec EndSpec PurseSpec BallotSpec RecountSpec MajoritySpec MajorityCases
  SwaySpec SwayCases SpreadSpec SpreadFacts SpreadCases.

(** Two general votes under the same rules have the same outcome if the weights of the first are only spread over other accounts in the second, which say the same. *)
Theorem C107_spreading_is_nothing : forall X Y (Out : outside X) (Out' : outside Y) A B (w0 w : world X) (v0 v : world Y) id k pl pl' ql ql' f xs,
  held Out A w0 w id pl pl' -> held Out' B v0 v k ql ql' -> same_rules pl ql -> spread A B w id v k f xs -> p_status ql' = p_status pl'.
Proof. exact spreading_is_nothing. Qed.
Print Assumptions C107_spreading_is_nothing.

Example C107_spreading_nonvacuous : held idle dao_at lean_dao (lean_run cool) 1 (lean_open cool) (lean_poll cool (Passed 0 50)) /\
  held idle dao_at lean_dao (lean_run split_stake) 1 (split_poll (InProgress (1100 * NANOS))) (split_poll (Passed 0 50)) /\
  same_rules (lean_open cool) (split_poll (InProgress (1100 * NANOS))) /\
  spread dao_at dao_at (lean_run cool) 1 (lean_run split_stake) 1 owner [11; 12; 13; 14] /\
  map (weight_of (w_member (lean_run cool))) [11; 14] = [50; 0] /\ map (weight_of (w_member (lean_run split_stake))) [11; 14] = [30; 20].
Proof. exact spread_case. Qed.

(** The same if the accounts have changed their names. *)
Theorem C107_names_do_not_count : forall X Y (Out : outside X) (Out' : outside Y) A B (w0 w : world X) (v0 v : world Y) id k pl pl' ql ql' f g,
  held Out A w0 w id pl pl' -> held Out' B v0 v k ql ql' -> same_rules pl ql -> renamed_by A B w id v k f g -> p_status ql' = p_status pl'.
Proof. exact names_do_not_count. Qed.
Print Assumptions C107_names_do_not_count.

Example C107_names_nonvacuous : held idle dao_at lean_dao (lean_run cool) 1 (lean_open cool) (lean_poll cool (Passed 0 50)) /\
  held idle dao_at lean_dao (lean_run mirrored) 1 (lean_open mirrored) (lean_poll mirrored (Passed 0 50)) /\ same_rules (lean_open cool) (lean_open mirrored) /\
  renamed_by dao_at dao_at (lean_run cool) 1 (lean_run mirrored) 1 exchange exchange.
Proof. exact names_case. Qed.
