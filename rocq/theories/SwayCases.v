(** Cases of votes that are changed. *)
From Verif Require Import Base OMap OMapLemmas Assets PollModel PollSpec FundsModel MemberModel MemberSpec Msgs ControllerModel ControllerSpec
  TreasuryModel EnterpriseModel OutpostsModel WorldModel WorldSpec WorldRun WorldExamples WorldCases LiveSpec LiveCases EndSpec
  PurseSpec BallotSpec BallotFacts BallotCases RecountSpec RecountFacts RecountCases MajoritySpec MajorityFacts MajorityCases SwaySpec SwayFacts.

(** A DAO that wants 40 percent for a decision and 45 for a veto. *)
Definition lean : gov_config := mk_gov_config (percent 30) (percent 40) (Some (percent 45)) 1000 (Some 20) false.
Definition lean_dao : world unit :=
  set_ctl (dao false) (got (ctl_instantiate (clock 50) 1 DaoDenom lean (Some w_councillors) [] None) (w_ctl (dao false))).
Lemma lean_new : new_dao dao_at lean_dao.
Proof.
  split.
  - unfold dao_addrs, dao_at. cbn. repeat constructor; cbn; intuition discriminate.
  - reflexivity.
  - exists None. reflexivity.
  - exists (clock 50), DaoDenom, lean, (Some w_councillors), None. vm_compute; reflexivity.
  - reflexivity.
  - exists (clock 50), (IDenom 1 70 (DTime 2000) [3]). vm_compute. reflexivity.
  - vm_compute. reflexivity.
  - vm_compute. reflexivity.
  - exists (clock 50), (IMultisig 1 (Some [(21, 1); (22, 1); (23, 1)]) [] [] [3]). vm_compute. reflexivity.
  - reflexivity.
Qed.

Lemma lean_created : created_by (50 * NANOS) (w_member lean_dao) /\ created_by (50 * NANOS) (w_council lean_dao).
Proof. exact (both_created false). Qed.

Definition session (a b c : N) (o1 o2 o3 : option outcome) : list tx :=
  [stake 60 11 a; stake 61 12 b; stake 62 13 c] ++ [propose 100 11 [PUpdateMinimumWeight 5]] ++ say 110 11 o1 ++ say 111 12 o2 ++ say 112 13 o3.
Definition lean_run (ts : list tx) : world unit := world_run idle dao_at lean_dao ts.
Definition lean_poll (ts : list tx) (s : poll_status) : poll :=
  mk_poll 1 11 0 s (100 * NANOS) (1100 * NANOS) (percent 30) (percent 40) (Some (percent 45))
    (p_results (dflt (mk_poll 0 0 0 (InProgress 0) 0 0 0 0 None oempty) (oget (g_polls (w_gov (lean_run ts))) 1))).
Definition lean_open ts := lean_poll ts (InProgress (1100 * NANOS)).
Ltac lean_by ts s :=
  unfold lean_run; apply (held_check _ idle dao_at (50 * NANOS) lean_dao ts [execute 1500 13 1] 1 (1100 * NANOS) (lean_open ts) (lean_poll ts s));
  [exact lean_new|exact (proj1 lean_created)|exact (proj2 lean_created)|apply timely_check; vm_compute; reflexivity|split; vm_compute; reflexivity|split; vm_compute; reflexivity
  |apply calm_check; vm_compute; reflexivity|vm_compute; reflexivity|vm_compute; reflexivity|vm_compute; reflexivity|repeat constructor
  |repeat (constructor; [vm_compute; discriminate|]); constructor|vm_compute; reflexivity|vm_compute; discriminate].

(** Only those in a log have said anything, and only those in the books weigh anything. *)
Definition same_said (os : list (option outcome)) (o : outcome) (x y : option outcome) : bool :=
  let eqb (a b : option outcome) := match a, b with Some a, Some b => outcome_u8 a =? outcome_u8 b | None, None => true | _, _ => false end in
  eqb y x || (existsb (eqb x) os && eqb y (Some o)).
Lemma swayed_check X Y A B (w : world X) id (v : world Y) k os o :
  forallb (fun u => same_said os o (last_ballot A (w_log w) u id) (last_ballot B (w_log v) u k)) (map fst (w_log w) ++ map fst (w_log v)) = true ->
  swayed A B w id v k os o.
Proof.
  intros H u. cbn zeta. rewrite forallb_forall in H.
  assert (Q : forall a b : option outcome, (match a, b with Some a, Some b => outcome_u8 a =? outcome_u8 b | None, None => true | _, _ => false end) = true -> a = b).
  { intros [a|] [b|]; try discriminate; try reflexivity. intros E. apply N.eqb_eq in E. destruct a, b; try discriminate; reflexivity. }
  assert (D : In u (map fst (w_log w) ++ map fst (w_log v)) \/ (last_ballot A (w_log w) u id = None /\ last_ballot B (w_log v) u k = None)).
  { destruct (last_ballot A (w_log w) u id) eqn:E1; [left; apply in_app_iff; left; eapply last_sender; exact E1|].
    destruct (last_ballot B (w_log v) u k) eqn:E2; [left; apply in_app_iff; right; eapply last_sender; exact E2|]. right. auto. }
  destruct D as [D|(-> & ->)]; [|left; reflexivity]. specialize (H u D). unfold same_said in H. apply orb_true_iff in H. destruct H as [H|H].
  - left. apply Q. exact H.
  - right. apply andb_true_iff in H. destruct H as (H1 & H2). apply existsb_exists in H1. destruct H1 as (x & Hx & H1). apply Q in H1. apply (Q _ (Some o)) in H2. subst x. auto.
Qed.
Lemma evenly_check X Y (w : world X) (v : world Y) : m_weights (members_of (w_member w)) = m_weights (members_of (w_member v)) -> evenly w v.
Proof. intros H u. unfold weight_of. rewrite H. reflexivity. Qed.


Lemma never_carried p : (match p_status p with Passed _ _ => false | _ => true end) = true -> ~ carried p.
Proof. intros H (n & E). rewrite E in H. discriminate. Qed.
Lemma quorate_check X A (w : world X) id pl : reachesb (support A w id Yes + support A w id No + support A w id Abstain + support A w id Veto) (weight_now w General) (p_quorum pl) = true -> quorate A w id pl.
Proof. intros H. apply reachesb_spec. exact H. Qed.
Lemma lean_rules ts s ts' s' : same_rules (lean_poll ts s) (lean_poll ts' s').
Proof. repeat split. Qed.

(** 11 says yes, 12 no, and 13 abstains; or 12 and 13 say yes as well. *)
Definition cool := session 50 30 20 (Some Yes) (Some No) (Some Abstain).
Definition warm := session 50 30 20 (Some Yes) (Some Yes) (Some Yes).
Lemma cool_held : held idle dao_at lean_dao (lean_run cool) 1 (lean_open cool) (lean_poll cool (Passed 0 50)).
Proof. lean_by cool (Passed 0 50). Qed.
Lemma warm_held : held idle dao_at lean_dao (lean_run warm) 1 (lean_open warm) (lean_poll warm (Passed 0 100)).
Proof. lean_by warm (Passed 0 100). Qed.
Lemma yes_case : held idle dao_at lean_dao (lean_run cool) 1 (lean_open cool) (lean_poll cool (Passed 0 50)) /\
  held idle dao_at lean_dao (lean_run warm) 1 (lean_open warm) (lean_poll warm (Passed 0 100)) /\ same_rules (lean_open cool) (lean_open warm) /\
  evenly (lean_run cool) (lean_run warm) /\
  swayed dao_at dao_at (lean_run cool) 1 (lean_run warm) 1 [None; Some No; Some Abstain; Some Veto] Yes /\ carried (lean_poll cool (Passed 0 50)).
Proof.
  split; [exact cool_held|]. split; [exact warm_held|]. split; [apply lean_rules|]. split; [apply evenly_check; vm_compute; reflexivity|].
  split; [apply swayed_check; vm_compute; reflexivity|]. exists 50. reflexivity.
Qed.

(** 13 says nothing, or abstains, or vetoes. *)
Definition quiet := session 50 30 20 (Some Yes) (Some No) None.
Definition angry := session 50 30 20 (Some Yes) (Some No) (Some Veto).
Lemma quiet_held : held idle dao_at lean_dao (lean_run quiet) 1 (lean_open quiet) (lean_poll quiet (Passed 0 50)).
Proof. lean_by quiet (Passed 0 50). Qed.
Lemma angry_held : held idle dao_at lean_dao (lean_run angry) 1 (lean_open angry) (lean_poll angry (Passed 0 50)).
Proof. lean_by angry (Passed 0 50). Qed.
Lemma veto_case : held idle dao_at lean_dao (lean_run quiet) 1 (lean_open quiet) (lean_poll quiet (Passed 0 50)) /\
  held idle dao_at lean_dao (lean_run angry) 1 (lean_open angry) (lean_poll angry (Passed 0 50)) /\ same_rules (lean_open quiet) (lean_open angry) /\
  evenly (lean_run quiet) (lean_run angry) /\
  swayed dao_at dao_at (lean_run quiet) 1 (lean_run angry) 1 [None; Some Yes; Some Abstain] Veto /\
  quorate dao_at (lean_run quiet) 1 (lean_open quiet) /\ carried (lean_poll angry (Passed 0 50)).
Proof.
  split; [exact quiet_held|]. split; [exact angry_held|]. split; [apply lean_rules|]. split; [apply evenly_check; vm_compute; reflexivity|].
  split; [apply swayed_check; vm_compute; reflexivity|]. split; [apply quorate_check; vm_compute; reflexivity|]. exists 50. reflexivity.
Qed.
Lemma abstain_case : held idle dao_at lean_dao (lean_run quiet) 1 (lean_open quiet) (lean_poll quiet (Passed 0 50)) /\
  held idle dao_at lean_dao (lean_run cool) 1 (lean_open cool) (lean_poll cool (Passed 0 50)) /\ same_rules (lean_open quiet) (lean_open cool) /\
  evenly (lean_run quiet) (lean_run cool) /\
  swayed dao_at dao_at (lean_run quiet) 1 (lean_run cool) 1 [None] Abstain /\ quorate dao_at (lean_run quiet) 1 (lean_open quiet) /\
  map (fun w => last_ballot dao_at (w_log w) 13 1) [lean_run quiet; lean_run cool] = [None; Some Abstain].
Proof.
  split; [exact quiet_held|]. split; [exact cool_held|]. split; [apply lean_rules|]. split; [apply evenly_check; vm_compute; reflexivity|].
  split; [apply swayed_check; vm_compute; reflexivity|]. split; [apply quorate_check; vm_compute; reflexivity|]. vm_compute; reflexivity.
Qed.

(** Too few have said anything until 12 says no, or vetoes: then there is a quorum, and yes has it. *)
Definition empty_hall := session 20 15 65 (Some Yes) None None.
Definition with_no := session 20 15 65 (Some Yes) (Some No) None.
Definition with_veto := session 20 15 65 (Some Yes) (Some Veto) None.
Lemma empty_held : held idle dao_at lean_dao (lean_run empty_hall) 1 (lean_open empty_hall) (lean_poll empty_hall (Rejected QuorumNotReached)).
Proof. lean_by empty_hall (Rejected QuorumNotReached). Qed.
Lemma with_no_held : held idle dao_at lean_dao (lean_run with_no) 1 (lean_open with_no) (lean_poll with_no (Passed 0 20)).
Proof. lean_by with_no (Passed 0 20). Qed.
Lemma with_veto_held : held idle dao_at lean_dao (lean_run with_veto) 1 (lean_open with_veto) (lean_poll with_veto (Passed 0 20)).
Proof. lean_by with_veto (Passed 0 20). Qed.
Lemma quorum_refuted : forall o, In o [No; Veto] -> exists w0 w v pl pl' ql ql',
  held idle dao_at w0 w 1 pl pl' /\ held idle dao_at w0 v 1 ql ql' /\ same_rules pl ql /\ evenly w v /\
  swayed dao_at dao_at w 1 v 1 [None] o /\ p_status pl' = Rejected QuorumNotReached /\ carried ql'.
Proof.
  intros o [<-|[<-|[]]].
  - exists lean_dao, (lean_run empty_hall), (lean_run with_no), (lean_open empty_hall), (lean_poll empty_hall (Rejected QuorumNotReached)), (lean_open with_no), (lean_poll with_no (Passed 0 20)).
    split; [exact empty_held|]. split; [exact with_no_held|]. split; [apply lean_rules|]. split; [apply evenly_check; vm_compute; reflexivity|].
    split; [apply swayed_check; vm_compute; reflexivity|]. split; [reflexivity|]. exists 20. reflexivity.
  - exists lean_dao, (lean_run empty_hall), (lean_run with_veto), (lean_open empty_hall), (lean_poll empty_hall (Rejected QuorumNotReached)), (lean_open with_veto), (lean_poll with_veto (Passed 0 20)).
    split; [exact empty_held|]. split; [exact with_veto_held|]. split; [apply lean_rules|]. split; [apply evenly_check; vm_compute; reflexivity|].
    split; [apply swayed_check; vm_compute; reflexivity|]. split; [reflexivity|]. exists 20. reflexivity.
Qed.

(** The vetoes are enough until 13 says no as well. *)
Definition vetoed := session 50 45 10 (Some Yes) (Some Veto) None.
Definition diluted := session 50 45 10 (Some Yes) (Some Veto) (Some No).
Lemma vetoed_held : held idle dao_at lean_dao (lean_run vetoed) 1 (lean_open vetoed) (lean_poll vetoed (Rejected IsVetoOutcome)).
Proof. lean_by vetoed (Rejected IsVetoOutcome). Qed.
Lemma diluted_held : held idle dao_at lean_dao (lean_run diluted) 1 (lean_open diluted) (lean_poll diluted (Passed 0 50)).
Proof. lean_by diluted (Passed 0 50). Qed.
Lemma dilution_refuted : exists w0 w v pl pl' ql ql',
  held idle dao_at w0 w 1 pl pl' /\ held idle dao_at w0 v 1 ql ql' /\ same_rules pl ql /\ evenly w v /\
  swayed dao_at dao_at w 1 v 1 [None] No /\ quorate dao_at w 1 pl /\ p_status pl' = Rejected IsVetoOutcome /\ carried ql'.
Proof.
  exists lean_dao, (lean_run vetoed), (lean_run diluted), (lean_open vetoed), (lean_poll vetoed (Rejected IsVetoOutcome)), (lean_open diluted), (lean_poll diluted (Passed 0 50)).
  split; [exact vetoed_held|]. split; [exact diluted_held|]. split; [apply lean_rules|]. split; [apply evenly_check; vm_compute; reflexivity|].
  split; [apply swayed_check; vm_compute; reflexivity|]. split; [apply quorate_check; vm_compute; reflexivity|]. split; [reflexivity|]. exists 50. reflexivity.
Qed.

(** No has more than yes until 13 vetoes instead. *)
Definition refused := session 40 30 15 (Some Yes) (Some No) (Some No).
Definition split_up := session 40 30 15 (Some Yes) (Some No) (Some Veto).
Lemma refused_held : held idle dao_at lean_dao (lean_run refused) 1 (lean_open refused) (lean_poll refused (Rejected IsRejectingOutcome)).
Proof. lean_by refused (Rejected IsRejectingOutcome). Qed.
Lemma split_held : held idle dao_at lean_dao (lean_run split_up) 1 (lean_open split_up) (lean_poll split_up (Passed 0 40)).
Proof. lean_by split_up (Passed 0 40). Qed.
Lemma stronger_refuted : exists w0 w v pl pl' ql ql',
  held idle dao_at w0 w 1 pl pl' /\ held idle dao_at w0 v 1 ql ql' /\ same_rules pl ql /\ evenly w v /\
  swayed dao_at dao_at w 1 v 1 [Some No] Veto /\ quorate dao_at w 1 pl /\ p_status pl' = Rejected IsRejectingOutcome /\ carried ql'.
Proof.
  exists lean_dao, (lean_run refused), (lean_run split_up), (lean_open refused), (lean_poll refused (Rejected IsRejectingOutcome)), (lean_open split_up), (lean_poll split_up (Passed 0 40)).
  split; [exact refused_held|]. split; [exact split_held|]. split; [apply lean_rules|]. split; [apply evenly_check; vm_compute; reflexivity|].
  split; [apply swayed_check; vm_compute; reflexivity|]. split; [apply quorate_check; vm_compute; reflexivity|]. split; [reflexivity|]. exists 40. reflexivity.
Qed.
