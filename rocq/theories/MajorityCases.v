(** Cases of groups of voters. *)
From Verif Require Import Base OMap OMapLemmas Assets PollModel PollSpec FundsModel MemberModel MemberSpec Msgs ControllerModel ControllerSpec
  TreasuryModel EnterpriseModel OutpostsModel WorldModel WorldSpec WorldRun WorldExamples WorldCases LiveSpec LiveCases EndSpec
  PurseSpec BallotSpec BallotFacts BallotCases RecountSpec RecountFacts RecountCases MajoritySpec MajorityFacts.

(** 11 weighs 60 and 12 weighs 40; each says what is given here, if anything. *)
Definition say (t : N) (u : addr) (o : option outcome) : list tx := match o with Some o => [to_ctl t u [] (CCastVote 1 o)] | None => [] end.
Definition debate (more : list tx) (o1 o2 : option outcome) : list tx :=
  stakes ++ more ++ [propose 100 11 [PUpdateMinimumWeight 5]] ++ say 110 11 o1 ++ say 111 12 o2.

Definition poll_of (ts : list tx) (s : poll_status) : poll :=
  mk_poll 1 11 0 s (100 * NANOS) (1100 * NANOS) (percent 30) (percent 50) None
    (p_results (dflt (mk_poll 0 0 0 (InProgress 0) 0 0 0 0 None oempty) (oget (g_polls (w_gov (after false ts))) 1))).
Definition open_poll_of ts := poll_of ts (InProgress (1100 * NANOS)).

Lemma stand_check X A (w : world X) id o us : NoDup us -> map (fun u => last_ballot A (w_log w) u id) us = map (fun _ => Some o) us -> forall os, In o os -> stand_for A w id os us.
Proof.
  intros Hn He os Ho. split; [exact Hn|]. intros u Hu. exists o. split; [exact Ho|]. clear - He Hu. induction us as [|k us IH]; [contradiction|].
  cbn [map] in He. injection He as E1 E2. destruct Hu as [->|Hu]; auto.
Qed.
Lemma silent_check X A (w : world X) id us : NoDup us -> map (fun u => last_ballot A (w_log w) u id) us = map (fun _ => None) us -> silent A w id us.
Proof.
  intros Hn He. split; [exact Hn|]. intros u Hu. clear - He Hu. induction us as [|k us IH]; [contradiction|].
  cbn [map] in He. injection He as E1 E2. destruct Hu as [->|Hu]; auto.
Qed.

Lemma closing_check X (w : world X) id ends pl : option_map pi_type (oget (ct_proposals (w_ctl w)) id) = Some General ->
  oget (g_polls (w_gov w)) id = Some pl -> p_status pl = InProgress ends -> closing w General id ends.
Proof. intros H8 H H1. destruct (oget (ct_proposals _) id) as [p|] eqn:E; [|discriminate]. injection H8 as H8. exists p, pl. auto. Qed.

Definition reachesb (a b p : N) : bool := if b =? 0 then p =? 0 else p * b <=? a * DEC.
Lemma reachesb_spec a b p : reaches a b p <-> reachesb a b p = true.
Proof.
  unfold reaches, reachesb. destruct (N.eqb_spec b 0) as [->|H].
  - rewrite N.eqb_eq. tauto.
  - rewrite N.leb_le. tauto.
Qed.
Lemma reachesb_not a b p : reachesb a b p = false -> ~ reaches a b p.
Proof. rewrite reachesb_spec. congruence. Qed.

Lemma winning_check X (w : world X) pl us s t : power w us = s -> weight_now w General = t ->
  (t <? 2 * s) && reachesb s t (p_quorum pl) && reachesb s t (p_threshold pl) && negb (reachesb (t - s) t (veto_share pl)) = true -> winning w pl us.
Proof.
  intros E1 E2 H. unfold winning. rewrite E1, E2. rewrite !andb_true_iff, negb_true_iff, N.ltb_lt in H. destruct H as (((H1 & H2) & H3) & H4).
  rewrite !reachesb_spec. repeat split; auto. congruence.
Qed.
Lemma vetoing_check X (w : world X) pl us s t : power w us = s -> weight_now w General = t ->
  reachesb s t (p_quorum pl) && reachesb s t (veto_share pl) = true -> vetoing w pl us.
Proof. intros E1 E2 H. unfold vetoing. rewrite E1, E2. rewrite andb_true_iff in H. rewrite !reachesb_spec. exact H. Qed.
Lemma blocking_check X (w : world X) pl us s t : power w us = s -> weight_now w General = t -> reachesb (t - s) t (p_threshold pl) = false -> blocking w pl us.
Proof. intros E1 E2 H. unfold blocking. rewrite E1, E2. apply reachesb_not. exact H. Qed.
Lemma needed_check X (w : world X) pl us s t : power w us = s -> weight_now w General = t -> reachesb (t - s) t (p_quorum pl) = false -> needed w pl us.
Proof. intros E1 E2 H. unfold needed. rewrite E1, E2. apply reachesb_not. exact H. Qed.

Ltac held_by ts late s :=
  apply (held_check _ idle dao_at (50 * NANOS) (dao false) ts late 1 (1100 * NANOS) (open_poll_of ts) (poll_of ts s));
  [exact (start_new _)|apply both_created|apply both_created|apply timely_check; vm_compute; reflexivity|split; vm_compute; reflexivity|split; vm_compute; reflexivity
  |apply calm_check; vm_compute; reflexivity|vm_compute; reflexivity|vm_compute; reflexivity|vm_compute; reflexivity|repeat constructor
  |repeat (constructor; [vm_compute; discriminate|]); constructor|vm_compute; reflexivity|vm_compute; discriminate].
Ltac alone := repeat constructor; cbn; intuition discriminate.

(** 11 is enough for yes although 12 vetoes; 11 is enough for a veto; and for a no; and nothing is decided without 11. *)
Definition won : list tx := debate [] (Some Yes) (Some Veto).
Definition stopped : list tx := debate [] (Some Veto) (Some Yes).
Definition blocked : list tx := debate [] (Some No) (Some Yes).
Definition missed : list tx := debate [stake 70 11 100] None (Some Yes).
Definition runs (ts : list tx) : world unit := world_run idle dao_at (dao false) ts.

Lemma won_held : held idle dao_at (dao false) (runs won) 1 (open_poll_of won) (poll_of won (Passed 0 60)).
Proof. unfold runs. held_by won [execute 1500 13 1] (Passed 0 60). Qed.
Lemma won_case : held idle dao_at (dao false) (runs won) 1 (open_poll_of won) (poll_of won (Passed 0 60)) /\
  stand_for dao_at (runs won) 1 [Yes] [11] /\ winning (runs won) (open_poll_of won) [11].
Proof.
  split; [exact won_held|]. split.
  - apply (stand_check _ dao_at (runs won) 1 Yes [11]); [alone|vm_compute; reflexivity|left; reflexivity].
  - apply (winning_check _ (runs won) (open_poll_of won) [11] 60 100); vm_compute; reflexivity.
Qed.

Lemma stopped_held : held idle dao_at (dao false) (runs stopped) 1 (open_poll_of stopped) (poll_of stopped (Rejected IsVetoOutcome)).
Proof. unfold runs. held_by stopped [execute 1500 13 1] (Rejected IsVetoOutcome). Qed.
Lemma stopped_case : held idle dao_at (dao false) (runs stopped) 1 (open_poll_of stopped) (poll_of stopped (Rejected IsVetoOutcome)) /\
  stand_for dao_at (runs stopped) 1 [Veto] [11] /\ vetoing (runs stopped) (open_poll_of stopped) [11].
Proof.
  split; [exact stopped_held|]. split.
  - apply (stand_check _ dao_at (runs stopped) 1 Veto [11]); [alone|vm_compute; reflexivity|left; reflexivity].
  - apply (vetoing_check _ (runs stopped) (open_poll_of stopped) [11] 60 100); vm_compute; reflexivity.
Qed.

Lemma blocked_held : held idle dao_at (dao false) (runs blocked) 1 (open_poll_of blocked) (poll_of blocked (Rejected IsRejectingOutcome)).
Proof. unfold runs. held_by blocked [execute 1500 13 1] (Rejected IsRejectingOutcome). Qed.
Lemma blocked_case : held idle dao_at (dao false) (runs blocked) 1 (open_poll_of blocked) (poll_of blocked (Rejected IsRejectingOutcome)) /\
  stand_for dao_at (runs blocked) 1 [No; Veto] [11] /\ blocking (runs blocked) (open_poll_of blocked) [11].
Proof.
  split; [exact blocked_held|]. split.
  - apply (stand_check _ dao_at (runs blocked) 1 No [11]); [alone|vm_compute; reflexivity|left; reflexivity].
  - apply (blocking_check _ (runs blocked) (open_poll_of blocked) [11] 60 100); vm_compute; reflexivity.
Qed.

Lemma missed_held : held idle dao_at (dao false) (runs missed) 1 (open_poll_of missed) (poll_of missed (Rejected QuorumNotReached)).
Proof. unfold runs. held_by missed [execute 1500 13 1] (Rejected QuorumNotReached). Qed.
Lemma missed_case : held idle dao_at (dao false) (runs missed) 1 (open_poll_of missed) (poll_of missed (Rejected QuorumNotReached)) /\
  silent dao_at (runs missed) 1 [11] /\ needed (runs missed) (open_poll_of missed) [11].
Proof.
  split; [exact missed_held|]. split.
  - apply (silent_check _ dao_at (runs missed) 1 [11]); [alone|vm_compute; reflexivity].
  - apply (needed_check _ (runs missed) (open_poll_of missed) [11] 160 200); vm_compute; reflexivity.
Qed.

(** After the end 11 takes a fortune out and 12 puts one in, and nobody has asked for the execution yet. *)
Definition turned : list tx := [unstake 1100 11 60; stake 1110 12 100000].
Lemma order_case : let w' := world_run idle dao_at (dao false) (won ++ turned) in
  new_dao dao_at (dao false) /\ free_calls idle /\ created_by (50 * NANOS) (w_member (dao false)) /\ created_by (50 * NANOS) (w_council (dao false)) /\
  timely (50 * NANOS) (won ++ turned) /\ lasting (runs won) /\ lasting w' /\ calm dao_at w' /\
  closing (runs won) General 1 (1100 * NANOS) /\ oget (g_polls (w_gov (runs won))) 1 = Some (open_poll_of won) /\
  seconds_before (1100 * NANOS) won /\ all_after (1100 * NANOS) turned /\
  stand_for dao_at (runs won) 1 [Yes] [11] /\ winning (runs won) (open_poll_of won) [11] /\
  option_map pi_executed_at (oget (ct_proposals (w_ctl w')) 1) = Some None /\ oget (g_polls (w_gov w')) 1 = Some (open_poll_of won) /\
  restricted_by idle dao_at w' 1 13 = Ok false /\ map (weight_of (w_member w')) [11; 12] = [0; 100040].
Proof.
  cbn zeta. split; [exact (start_new _)|]. split; [exact idle_free|]. split; [apply both_created|]. split; [apply both_created|].
  split; [apply timely_check; vm_compute; reflexivity|]. split; [split; vm_compute; reflexivity|]. split; [split; vm_compute; reflexivity|].
  split; [apply calm_check; vm_compute; reflexivity|].
  split.
  { apply (closing_check _ (runs won) 1 (1100 * NANOS) (open_poll_of won)); vm_compute; reflexivity. }
  split; [vm_compute; reflexivity|]. split; [repeat constructor|]. split; [repeat (constructor; [vm_compute; discriminate|]); constructor|].
  split; [exact (proj1 (proj2 won_case))|]. split; [exact (proj2 (proj2 won_case))|]. split; [vm_compute; reflexivity|]. split; [vm_compute; reflexivity|]. split; vm_compute; reflexivity.
Qed.
Lemma sharp_case : power (runs won) [11] = 60 /\ weight_now (runs won) General = 100 /\ winning (runs won) (open_poll_of won) [11] /\ ~ winning (runs won) (open_poll_of won) [12].
Proof.
  split; [vm_compute; reflexivity|]. split; [vm_compute; reflexivity|]. split; [apply won_case|].
  intros (H & _). revert H. replace (power (runs won) [12]) with 40 by (vm_compute; reflexivity). replace (weight_now (runs won) General) with 100 by (vm_compute; reflexivity). lia.
Qed.
