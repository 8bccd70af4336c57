(** Votes that are changed, and what becomes of the outcome. *)
From Verif Require Import Base OMap OMapLemmas Assets PollModel PollSpec PollProofs PollFacts FundsModel FundsSpec MemberModel MemberSpec MemberProofs MemberFacts Msgs
  ControllerModel ControllerSpec ControllerProofs ControllerFacts TreasuryModel EnterpriseModel OutpostsModel WorldModel WorldSpec WorldProofs WorldRun WorldFacts
  LiveSpec LiveResults EndSpec EndFacts RipeSpec RipeFacts PurseSpec BallotSpec BallotProofs BallotFacts RecountSpec RecountFacts MajoritySpec MajorityFacts SwaySpec.

(** * The rule *)

Lemma reaches_more a b a' b' p : reaches a b p -> (b = 0 -> b' = 0 \/ a' * 0 = 0) -> (b <> 0 -> b' <> 0) -> a * b' <= a' * b -> reaches a' b' p.
Proof.
  intros H _ Hn H2. destruct H as [(H0 & H1)|(H0 & ->)].
  - left. split; [auto|]. eapply share_cross; eassumption.
  - destruct (N.eq_dec b' 0); [right; auto|left; split; [assumption|]]. rewrite N.mul_0_l. apply N.le_0_l.
Qed.
Lemma reaches_up a b a' b' p : reaches a b p -> (b' = 0 -> b = 0) -> a * b' <= a' * b -> reaches a' b' p.
Proof. intros H H1 H2. eapply reaches_more; [exact H| | |exact H2]; [intros; right; apply N.mul_0_r|]. intros Hb Q. auto. Qed.
(** A smaller part of no less. *)
Lemma reaches_part a b a' b' p : reaches a b p -> a <= a' -> b' <= b -> a' <= b' -> reaches a' b' p.
Proof.
  intros H H1 H2 H3. destruct (N.eq_dec b' 0) as [E|E].
  - assert (a' = 0) by lia. assert (a = 0) by lia. subst. destruct H as [(H0 & H)|(_ & H)]; [|right; auto]. right. split; [reflexivity|].
    rewrite N.mul_0_l in H. apply N.le_0_r, N.mul_eq_0 in H. tauto.
  - apply (reaches_up a b); [exact H|intros; contradiction|]. apply N.mul_le_mono; assumption.
Qed.

Lemma pass_exact q t ve y n a v T : (exists k, verdict q t ve y n a v T (Passed 0 k)) <->
  reaches (y + n + a + v) T q /\ ~ reaches v (y + n + v) ve /\ reaches y (y + n + v) t /\ (reaches n (y + n + v) t -> n < y).
Proof.
  split.
  - intros (k & V). inversion V; subst. auto.
  - intros (H1 & H2 & H3 & H4). exists y. apply V_yes; assumption.
Qed.

Lemma more_yes q t ve T y n a v y' n' a' v' : y <= y' -> n' <= n -> v' <= v -> y + n + v <= y' + n' + v' -> y + n + a + v <= y' + n' + a' + v' ->
  (exists k, verdict q t ve y n a v T (Passed 0 k)) -> exists k, verdict q t ve y' n' a' v' T (Passed 0 k).
Proof.
  rewrite !pass_exact. intros Hy Hn Hv Hd Hc (H1 & H2 & H3 & H4). repeat split.
  - apply (reaches_up _ T _ T _ H1); [auto|]. apply N.mul_le_mono_r. exact Hc.
  - intros Q. apply H2. apply (reaches_part _ _ _ _ _ Q); lia.
  - apply (reaches_up _ _ _ _ _ H3); [lia|]. rewrite !N.mul_add_distr_l. rewrite (N.mul_comm y' y). apply N.add_le_mono; [apply N.add_le_mono|]; [lia|apply N.mul_le_mono; lia|apply N.mul_le_mono; lia].
  - intros Q. enough (n < y) by lia. apply H4. apply (reaches_part _ _ _ _ _ Q); lia.
Qed.

(** No and abstain may only be as many as before, and veto more; then what did not pass does not pass. *)
Lemma more_veto q t ve T y n a v y' a' v' : y' <= y -> v <= v' -> y + n + v <= y' + n + v' -> reaches (y + n + a + v) T q ->
  (exists k, verdict q t ve y' n a' v' T (Passed 0 k)) -> exists k, verdict q t ve y n a v T (Passed 0 k).
Proof.
  rewrite !pass_exact. intros Hy Hv Hd Hq (H1 & H2 & H3 & H4). repeat split.
  - exact Hq.
  - intros Q. apply H2. apply (reaches_up _ _ _ _ _ Q); [lia|].
    replace (v * (y' + n + v')) with (v * (y' + n) + v * v') by lia. replace (v' * (y + n + v)) with (v' * (y + n) + v * v') by lia.
    apply N.add_le_mono_r. apply N.mul_le_mono; lia.
  - apply (reaches_part _ _ _ _ _ H3); lia.
  - intros Q. destruct (N.lt_ge_cases n y) as [L|L]; [exact L|]. exfalso. assert (y' <= n) by lia. enough (n < y') by lia. apply H4.
    apply (reaches_up y' (y' + n + v')); [exact H3|lia|]. apply N.mul_le_mono_r. assumption.
Qed.

(** * Who said what *)

Section Two.
Context {X Y : Type} (A B : addrs) (w : world X) (id : N) (v : world Y) (k : N).
Hypothesis HE : evenly w v.
Notation S1 := (supporters A (w_log w) id).
Notation S2 := (supporters B (w_log v) k).

Lemma support_le ps qs : NoDup ps -> (forall u o, In o ps -> last_ballot A (w_log w) u id = Some o -> exists o', In o' qs /\ last_ballot B (w_log v) u k = Some o') ->
  lsum (support A w id) ps <= lsum (support B v k) qs.
Proof.
  intros Hn H.
  assert (E1 : forall l, lsum (support A w id) l = lsum (weight_of (w_member w)) (flat_map S1 l)).
  { induction l as [|o l IH]; [reflexivity|]. cbn [flat_map]. rewrite lsum_app, lsum_cons, IH. reflexivity. }
  assert (E2 : forall l, lsum (support B v k) l = lsum (weight_of (w_member w)) (flat_map S2 l)).
  { induction l as [|o l IH]; [reflexivity|]. cbn [flat_map]. rewrite lsum_app, lsum_cons, IH. f_equal. apply lsum_ext_in. intros u _. symmetry. apply HE. }
  rewrite E1, E2. apply lsum_incl.
  - clear - Hn. induction ps as [|o ps IH]; [constructor|]. inversion Hn; subst. cbn [flat_map]. apply NoDup_join; [apply supporters_NoDup|auto|].
    intros x Hx Hy. apply supporters_In in Hx. apply in_flat_map in Hy. destruct Hy as (o' & Ho & Hy). apply supporters_In in Hy. assert (o' = o) by congruence. subst. contradiction.
  - intros u Hu. apply in_flat_map in Hu. destruct Hu as (o & Ho & Hu). apply supporters_In in Hu. destruct (H u o Ho Hu) as (o' & Ho' & Hu').
    apply in_flat_map. exists o'. split; [exact Ho'|]. apply supporters_In. exact Hu'.
Qed.
End Two.

Lemma evenly_back X Y (w : world X) (v : world Y) : evenly w v -> evenly v w.
Proof. intros H u. symmetry. apply H. Qed.

Lemma same_total X Y (w : world X) (v : world Y) : evenly w v -> sum_ok (members_of (w_member w)) -> sum_ok (members_of (w_member v)) ->
  weight_now w General = weight_now v General.
Proof.
  intros HE H1 H2. unfold weight_now, total_now. cbn [query_total_weight].
  set (us := nodup N.eq_dec (okeys (m_weights (members_of (w_member w))) ++ okeys (m_weights (members_of (w_member v))))).
  assert (C : forall m u, ogetN m u <> 0 -> In u (okeys m)).
  { intros m u Hu. apply okeys_In. unfold ogetN in Hu. destruct (oget m u) as [x|]; [eauto|]. exfalso. apply Hu. reflexivity. }
  rewrite (roll_total _ us H1), (roll_total _ us H2); try apply NoDup_nodup.
  - apply lsum_ext_in. intros u _. apply HE.
  - intros u Hu. apply nodup_In, in_app_iff. right. apply C. exact Hu.
  - intros u Hu. apply nodup_In, in_app_iff. left. apply C. exact Hu.
Qed.

Lemma rules_veto p q : same_rules p q -> veto_share p = veto_share q.
Proof. intros (_ & H2 & H3). unfold veto_share. rewrite H2, H3. reflexivity. Qed.

Lemma carried_counts X (A : addrs) (w : world X) id pl pl' : counts A w id pl (p_status pl') ->
  (carried pl' <-> exists n, counts A w id pl (Passed 0 n)).
Proof.
  intros HC. split.
  - intros (n & E). exists n. rewrite <- E. exact HC.
  - intros (n & V). exists n. eapply verdict_functional; [exact HC|exact V].
Qed.

(** * The outcomes *)

Ltac moves H := let u := fresh "u" in let o := fresh "o" in let Ho := fresh "Ho" in let Hb := fresh "Hb" in
  intros u o Ho Hb; destruct (H u) as [E|(E1 & E2)]; cbn in *; rewrite ?Hb in *;
  repeat match goal with Q : _ \/ _ |- _ => destruct Q end; try contradiction; subst; try congruence;
  try (eexists; split; [|first [eassumption|symmetry; eassumption]]; cbn; tauto).

Lemma yes_never_hurts X Y (Out : outside X) (Out' : outside Y) A B (w0 w : world X) (v0 v : world Y) id k pl pl' ql ql' :
  held Out A w0 w id pl pl' -> held Out' B v0 v k ql ql' -> same_rules pl ql -> evenly w v ->
  swayed A B w id v k [None; Some No; Some Abstain; Some Veto] Yes -> carried pl' -> carried ql'.
Proof.
  intros HH1 HH2 HR HE HM. destruct (held_counts X Out A w0 w id pl pl' HH1) as (V1 & O1). destruct (held_counts Y Out' B v0 v k ql ql' HH2) as (V2 & O2).
  rewrite (carried_counts _ _ _ _ _ _ V1), (carried_counts _ _ _ _ _ _ V2). unfold counts.
  rewrite <- (rules_veto _ _ HR). destruct HR as (<- & <- & _). rewrite <- (same_total _ _ _ _ HE O1 O2).
  pose proof (support_le A B w id v k HE [Yes] [Yes]) as P1.
  pose proof (support_le B A v k w id (evenly_back _ _ _ _ HE) [No] [No]) as P2.
  pose proof (support_le B A v k w id (evenly_back _ _ _ _ HE) [Veto] [Veto]) as P3.
  pose proof (support_le A B w id v k HE [Yes; No; Veto] [Yes; No; Veto]) as P4.
  pose proof (support_le A B w id v k HE [Yes; No; Abstain; Veto] [Yes; No; Abstain; Veto]) as P5.
  rewrite !lsum_cons in P1, P2, P3, P4, P5. change (lsum (support A w id) []) with 0 in *. change (lsum (support B v k) []) with 0 in *.
  assert (D : forall l : list outcome, l = [Yes] \/ l = [No] \/ l = [Veto] \/ l = [Yes; No; Veto] \/ l = [Yes; No; Abstain; Veto] -> NoDup l).
  { intros l Hl. repeat (destruct Hl as [Hl|Hl]); subst; repeat constructor; cbn; intuition discriminate. }
  apply more_yes.
  - enough (support A w id Yes + 0 <= support B v k Yes + 0) by lia. apply P1; [apply D; auto|]. moves HM.
  - enough (support B v k No + 0 <= support A w id No + 0) by lia. apply P2; [apply D; auto|]. moves HM.
  - enough (support B v k Veto + 0 <= support A w id Veto + 0) by lia. apply P3; [apply D; auto|]. moves HM.
  - enough (support A w id Yes + (support A w id No + (support A w id Veto + 0)) <= support B v k Yes + (support B v k No + (support B v k Veto + 0))) by lia.
    apply P4; [apply D; auto|]. moves HM.
  - enough (support A w id Yes + (support A w id No + (support A w id Abstain + (support A w id Veto + 0))) <= support B v k Yes + (support B v k No + (support B v k Abstain + (support B v k Veto + 0)))) by lia.
    apply P5; [apply D; auto|]. moves HM.
Qed.

Lemma distinct_outcomes (l : list outcome) : l = [Yes] \/ l = [No] \/ l = [Veto] \/ l = [Yes; No; Veto] -> NoDup l.
Proof. intros Hl. repeat (destruct Hl as [Hl|Hl]); subst; repeat constructor; cbn; intuition discriminate. Qed.

Lemma veto_never_helps X Y (Out : outside X) (Out' : outside Y) A B (w0 w : world X) (v0 v : world Y) id k pl pl' ql ql' :
  held Out A w0 w id pl pl' -> held Out' B v0 v k ql ql' -> same_rules pl ql -> evenly w v ->
  swayed A B w id v k [None; Some Yes; Some Abstain] Veto -> quorate A w id pl -> carried ql' -> carried pl'.
Proof.
  intros HH1 HH2 HR HE HM HQ. destruct (held_counts X Out A w0 w id pl pl' HH1) as (V1 & O1). destruct (held_counts Y Out' B v0 v k ql ql' HH2) as (V2 & O2).
  rewrite (carried_counts _ _ _ _ _ _ V1), (carried_counts _ _ _ _ _ _ V2). unfold counts, quorate in *.
  rewrite <- (rules_veto _ _ HR). destruct HR as (<- & <- & _). rewrite <- (same_total _ _ _ _ HE O1 O2).
  pose proof (support_le B A v k w id (evenly_back _ _ _ _ HE) [Yes] [Yes]) as P1.
  pose proof (support_le B A v k w id (evenly_back _ _ _ _ HE) [No] [No]) as P2.
  pose proof (support_le A B w id v k HE [No] [No]) as P2'.
  pose proof (support_le A B w id v k HE [Veto] [Veto]) as P3.
  pose proof (support_le A B w id v k HE [Yes; No; Veto] [Yes; No; Veto]) as P4.
  rewrite !lsum_cons in P1, P2, P2', P3, P4. change (lsum (support A w id) []) with 0 in *. change (lsum (support B v k) []) with 0 in *.
  assert (EN : support B v k No = support A w id No).
  { apply N.le_antisymm.
    - enough (support B v k No + 0 <= support A w id No + 0) by lia. apply P2; [apply distinct_outcomes; auto|]. moves HM.
    - enough (support A w id No + 0 <= support B v k No + 0) by lia. apply P2'; [apply distinct_outcomes; auto|]. moves HM. }
  rewrite EN in *. apply more_veto; [| | |exact HQ].
  - enough (support B v k Yes + 0 <= support A w id Yes + 0) by lia. apply P1; [apply distinct_outcomes; auto|]. moves HM.
  - enough (support A w id Veto + 0 <= support B v k Veto + 0) by lia. apply P3; [apply distinct_outcomes; auto|]. moves HM.
  - enough (support A w id Yes + (support A w id No + (support A w id Veto + 0)) <= support B v k Yes + (support B v k No + (support B v k Veto + 0))) by lia.
    apply P4; [apply distinct_outcomes; auto 6|]. moves HM.
Qed.

Lemma more_abstain q t ve T y n a a' v s : a <= a' -> reaches (y + n + a + v) T q -> verdict q t ve y n a v T s -> verdict q t ve y n a' v T s.
Proof.
  intros Ha Hq V. assert (Hq' : reaches (y + n + a' + v) T q).
  { apply (reaches_up _ T _ T _ Hq); [auto|]. apply N.mul_le_mono_r. lia. }
  inversion V; subst; [contradiction|apply V_veto|apply V_yes|apply V_no|apply V_draw|apply V_threshold]; auto.
Qed.

Lemma abstaining_is_nothing X Y (Out : outside X) (Out' : outside Y) A B (w0 w : world X) (v0 v : world Y) id k pl pl' ql ql' :
  held Out A w0 w id pl pl' -> held Out' B v0 v k ql ql' -> same_rules pl ql -> evenly w v ->
  swayed A B w id v k [None] Abstain -> quorate A w id pl -> p_status ql' = p_status pl'.
Proof.
  intros HH1 HH2 HR HE HM HQ. destruct (held_counts X Out A w0 w id pl pl' HH1) as (V1 & O1). destruct (held_counts Y Out' B v0 v k ql ql' HH2) as (V2 & O2).
  unfold counts, quorate in *.
  rewrite <- (rules_veto _ _ HR) in V2. destruct HR as (Eq & Et & _). rewrite <- Eq, <- Et, <- (same_total _ _ _ _ HE O1 O2) in V2.
  assert (S : forall o, o <> Abstain -> support B v k o = support A w id o).
  { intros o Ho. pose proof (support_le A B w id v k HE [o] [o]) as P1. pose proof (support_le B A v k w id (evenly_back _ _ _ _ HE) [o] [o]) as P2.
    rewrite !lsum_cons in P1, P2. change (lsum (support A w id) []) with 0 in *. change (lsum (support B v k) []) with 0 in *.
    assert (D : NoDup [o]) by (constructor; [intros []|constructor]). apply N.le_antisymm.
    - enough (support B v k o + 0 <= support A w id o + 0) by lia. apply P2; [exact D|].
      intros u o' Ho' Hb. exists o'. split; [exact Ho'|]. destruct Ho' as [->|[]]. destruct (HM u) as [E|(_ & E)]; cbn in E; congruence.
    - enough (support A w id o + 0 <= support B v k o + 0) by lia. apply P1; [exact D|].
      intros u o' Ho' Hb. exists o'. split; [exact Ho'|]. destruct (HM u) as [E|([E0|[]] & E)]; cbn in *; congruence. }
  rewrite (S Yes), (S No), (S Veto) in V2 by discriminate.
  eapply verdict_functional; [exact V2|]. apply (more_abstain _ _ _ _ _ _ (support A w id Abstain)); [|exact HQ|exact V1].
  pose proof (support_le A B w id v k HE [Abstain] [Abstain]) as P1. rewrite !lsum_cons in P1. change (lsum (support A w id) []) with 0 in *. change (lsum (support B v k) []) with 0 in *.
  enough (support A w id Abstain + 0 <= support B v k Abstain + 0) by lia. apply P1; [constructor; [intros []|constructor]|]. moves HM.
Qed.
