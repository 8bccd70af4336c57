(** Groups of voters and the outcome. *)
From Verif Require Import Base OMap OMapLemmas Assets PollModel PollSpec PollProofs PollFacts FundsModel FundsSpec MemberModel MemberSpec MemberProofs MemberFacts Msgs
  ControllerModel ControllerSpec ControllerProofs ControllerFacts TreasuryModel EnterpriseModel OutpostsModel WorldModel WorldSpec WorldProofs WorldRun WorldFacts
  LiveSpec LiveResults EndSpec EndFacts RipeSpec RipeFacts PurseSpec BallotSpec BallotProofs BallotFacts RecountSpec RecountFacts MajoritySpec.

Lemma lsum_incl (f : addr -> N) ks : forall us, NoDup ks -> incl ks us -> lsum f ks <= lsum f us.
Proof.
  induction ks as [|k ks IH]; intros us Hn Hi; [cbn; lia|]. inversion Hn; subst.
  destruct (in_split k us (Hi k (or_introl eq_refl))) as (u1 & u2 & ->). rewrite lsum_app, !lsum_cons.
  specialize (IH (u1 ++ u2) H2). rewrite lsum_app in IH. enough (incl ks (u1 ++ u2)) by (specialize (IH H); lia).
  intros x Hx. specialize (Hi x (or_intror Hx)). apply in_app_iff in Hi. apply in_app_iff. destruct Hi as [Hi|[->|Hi]]; auto. contradiction.
Qed.

Lemma said_same o x : said o x = true <-> x = Some o.
Proof.
  unfold said. destruct x as [o'|]; [|split; discriminate]. split; [|intros E; injection E as ->; apply N.eqb_refl].
  intros H. apply N.eqb_eq in H. destruct o', o; try discriminate; reflexivity.
Qed.
Lemma supporters_In A l id o u : In u (supporters A l id o) <-> last_ballot A l u id = Some o.
Proof.
  unfold supporters. rewrite filter_In, nodup_In, said_same. split; [tauto|]. intros H. split; [exact (last_sender _ _ _ _ _ H)|exact H].
Qed.
Lemma supporters_NoDup A l id o : NoDup (supporters A l id o).
Proof. apply NoDup_filter, NoDup_nodup. Qed.

Lemma stand_power X A (w : world X) id os us : stand_for A w id os us -> power w us <= lsum (support A w id) os.
Proof.
  intros (Hn & Hs). unfold power. transitivity (lsum (weight_of (w_member w)) (flat_map (supporters A (w_log w) id) os)).
  - apply lsum_incl; [exact Hn|]. intros u Hu. destruct (Hs u Hu) as (o & Ho & Hb). apply in_flat_map. exists o. split; [exact Ho|]. apply supporters_In. exact Hb.
  - apply N.eq_le_incl. clear. induction os as [|o os IH]; [reflexivity|]. cbn [flat_map]. rewrite lsum_app, lsum_cons, IH. reflexivity.
Qed.

Lemma NoDup_join {T} (l1 l2 : list T) : NoDup l1 -> NoDup l2 -> (forall x, In x l1 -> ~ In x l2) -> NoDup (l1 ++ l2).
Proof.
  intros H1 H2 H. induction l1 as [|x l1 IH]; [exact H2|]. inversion H1; subst. cbn. constructor.
  - intros Q. apply in_app_iff in Q. destruct Q as [Q|Q]; [contradiction|]. exact (H x (or_introl eq_refl) Q).
  - apply IH; [assumption|]. intros y Hy. apply H. right. exact Hy.
Qed.

Lemma all_below X A (w : world X) id us : sum_ok (members_of (w_member w)) -> silent A w id us ->
  support A w id Yes + support A w id No + support A w id Abstain + support A w id Veto + power w us <= weight_now w General.
Proof.
  intros [Hs _] (Hn & Hsi). unfold weight_now, total_now. cbn [query_total_weight]. rewrite Hs.
  set (S := supporters A (w_log w) id).
  pose proof (distinct_sum (m_weights (members_of (w_member w))) (S Yes ++ S No ++ S Abstain ++ S Veto ++ us)) as D.
  rewrite !lsum_app in D. unfold support, power. fold S.
  change (ogetN (m_weights (members_of (w_member w)))) with (weight_of (w_member w)) in D.
  enough (NoDup (S Yes ++ S No ++ S Abstain ++ S Veto ++ us)) by (specialize (D H); lia). clear D.
  unfold S. repeat (apply NoDup_join; [apply supporters_NoDup| |]); try exact Hn;
    intros x Hx Hy; apply supporters_In in Hx; repeat (apply in_app_iff in Hy; destruct Hy as [Hy|Hy]);
    first [apply supporters_In in Hy; congruence|specialize (Hsi _ Hy); congruence].
Qed.

(** Shares compared by multiplying out. *)
Lemma share_up a b a' b' p D : b <> 0 -> p * b <= a * D -> a <= a' -> b' <= b -> p * b' <= a' * D.
Proof. intros. transitivity (p * b); [apply N.mul_le_mono_l; assumption|]. transitivity (a * D); [assumption|apply N.mul_le_mono_r; assumption]. Qed.
Lemma share_cross a b a' b' p D : b <> 0 -> p * b <= a * D -> a * b' <= a' * b -> p * b' <= a' * D.
Proof.
  intros H H1 H2. apply (N.mul_le_mono_pos_r _ _ b); [lia|].
  transitivity (a * D * b'); [replace (p * b' * b) with (p * b * b') by lia; apply N.mul_le_mono_r; exact H1|].
  replace (a * D * b') with (a * b' * D) by lia. replace (a' * D * b) with (a' * b * D) by lia. apply N.mul_le_mono_r; exact H2.
Qed.

Lemma reaches_cross a b a' b' p : reaches a b p -> b' <> 0 -> b <> 0 -> a * b' <= a' * b -> reaches a' b' p.
Proof. intros [(H1 & H2)|(H1 & _)] Hb' Hb H; [|contradiction]. left. split; [exact Hb'|]. eapply share_cross; eassumption. Qed.

Lemma win_verdict q t ve y n a v T S : y + n + a + v <= T -> S <= y -> T < 2 * S -> reaches S T q -> reaches S T t -> ~ reaches (T - S) T ve ->
  verdict q t ve y n a v T (Passed 0 y).
Proof.
  intros HT HS H2 Hq Ht Hv. assert (T <> 0) by lia. set (d := y + n + v).
  assert (Hd : d <> 0) by (unfold d; lia). assert (HdT : d <= T) by (unfold d; lia).
  assert (K : S * d <= y * T) by (apply N.mul_le_mono; assumption).
  apply V_yes; fold d.
  - eapply reaches_cross; [exact Hq|assumption|assumption|]. apply N.mul_le_mono_r. lia.
  - intros Q. apply Hv. eapply reaches_cross; [exact Q|assumption|assumption|].
    assert (E : v <= d - y) by (unfold d; lia). assert (E2 : y <= d) by (unfold d; lia). assert (E3 : S <= T) by lia.
    transitivity ((d - y) * T); [apply N.mul_le_mono_r; exact E|]. rewrite !N.mul_sub_distr_r. rewrite (N.mul_comm d T). lia.
  - eapply reaches_cross; [exact Ht|assumption|assumption|exact K].
  - intros _. lia.
Qed.

Lemma block_verdict q t ve y n a v T S s : y + n + a + v <= T -> S <= n + v -> ~ reaches (T - S) T t -> verdict q t ve y n a v T s -> exists r, s = Rejected r.
Proof.
  intros HT HS Hb V. destruct V; eauto. exfalso. apply Hb. set (d := y + n + v) in *.
  match goal with H : reaches y d t |- _ => rename H into Hy end. destruct (N.eq_dec d 0) as [E|E].
  - assert (Y : y = 0) by (unfold d in E; lia). destruct Hy as [(? & _)|(_ & Hy)]; [contradiction|]. subst t.
    destruct (N.eq_dec T 0) as [->|HT0]; [right; auto|left]. split; [exact HT0|]. rewrite N.mul_0_l. apply N.le_0_l.
  - destruct (N.eq_dec T 0) as [->|HT0]; [unfold d in E; lia|]. eapply reaches_cross; [exact Hy|assumption|assumption|].
    assert (E1 : y + S <= d) by (unfold d; lia). assert (E2 : y + S <= T) by lia.
    transitivity ((T - S) * (y + S)); [|apply N.mul_le_mono_l; exact E1]. clear - E2. remember (T - S) as r. assert (T = r + S) by lia. subst T.
    assert (y <= r) by lia. rewrite N.mul_add_distr_l, N.mul_add_distr_l. rewrite (N.mul_comm r y). apply N.add_le_mono_l. apply N.mul_le_mono_r. assumption.
Qed.

Lemma veto_verdict q t ve y n a v T S : y + n + a + v <= T -> S <= v -> reaches S T q -> reaches S T ve -> verdict q t ve y n a v T (Rejected IsVetoOutcome).
Proof.
  intros HT HS Hq Hv. set (d := y + n + v). assert (HdT : d <= T) by (unfold d; lia). destruct (N.eq_dec T 0) as [->|HT0].
  - destruct Hq as [(? & _)|(_ & ->)]; [contradiction|]. destruct Hv as [(? & _)|(_ & ->)]; [contradiction|]. apply V_veto; right; split; lia.
  - apply V_veto; fold d.
    + eapply reaches_cross; [exact Hq|assumption|assumption|]. apply N.mul_le_mono_r. lia.
    + destruct (N.eq_dec d 0) as [E|E].
      * right. split; [exact E|]. assert (S = 0) by (unfold d in E; lia). subst S. destruct Hv as [(_ & Hv)|(? & _)]; [|contradiction]. rewrite N.mul_0_l in Hv. apply N.le_0_r, N.mul_eq_0 in Hv. tauto.
      * eapply reaches_cross; [exact Hv|assumption|assumption|]. apply N.mul_le_mono; lia.
Qed.

Lemma quorum_verdict q t ve y n a v T S : y + n + a + v + S <= T -> ~ reaches (T - S) T q -> verdict q t ve y n a v T (Rejected QuorumNotReached).
Proof.
  intros HT Hq. apply V_quorum. intros Q. apply Hq. destruct (N.eq_dec T 0) as [->|HT0]; [replace (0 - S) with (y + n + a + v) by lia; exact Q|].
  eapply reaches_cross; [exact Q|assumption|assumption|]. apply N.mul_le_mono_r. lia.
Qed.

(** * Outcomes *)

Definition counts {X} (A : addrs) (w : world X) (id : N) (pl : poll) (s : poll_status) : Prop :=
  verdict (p_quorum pl) (p_threshold pl) (veto_share pl)
    (support A w id Yes) (support A w id No) (support A w id Abstain) (support A w id Veto) (weight_now w General) s.

Lemma held_counts X (Out : outside X) A (w0 w : world X) id pl pl' : held Out A w0 w id pl pl' ->
  counts A w id pl (p_status pl') /\ sum_ok (members_of (w_member w)).
Proof.
  intros [N1 P1 (b1 & bf1 & lt1 & e1 & E1 & C1 & D1 & T1 & L1 & L1' & K1 & O1 & S1 & F1 & Q1 & G1)]. subst w. split.
  - exact (ballots_decide X Out A b1 w0 bf1 lt1 id e1 pl pl' N1 C1 D1 T1 L1 L1' K1 O1 P1 S1 F1 Q1 G1).
  - set (w := world_run Out A w0 bf1) in *.
    assert (HT0 : timely b1 bf1) by (destruct (timely_app _ _ _ T1) as (T2 & _); exact T2).
    assert (HCw : calm A w).
    { assert (HC1 := K1). assert (HL1 := L1'). rewrite run_app in HC1, HL1. destruct HL1 as (_ & L2). fold w in HC1, L2.
      pose proof (run_size Out A lt1 w) as S2. assert (SW : size w < M64) by apply L1.
      destruct (run_ahead Out A (nd_addrs _ _ N1) bf1 w0 (new_wired _ _ N1) SW) as (HW & _). fold w in HW.
      destruct (run_ahead Out A (nd_addrs _ _ N1) lt1 _ HW L2) as (_ & AH & _). exact (calm_back _ _ _ AH HC1). }
    destruct (run_facts X Out A w0 bf1 N1 (timely_0 _ _ HT0) L1 HCw) as (K & _). destruct (c_small _ _ _ K) as (Hi & _). apply Hi.
Qed.

Lemma nobody_silent X A (w : world X) id : silent A w id [].
Proof. split; [constructor|intros u []]. Qed.
Lemma below X A (w : world X) id : sum_ok (members_of (w_member w)) ->
  support A w id Yes + support A w id No + support A w id Abstain + support A w id Veto <= weight_now w General.
Proof. intros Hs. pose proof (all_below X A w id [] Hs (nobody_silent X A w id)) as H. change (power w []) with 0 in H. lia. Qed.

Lemma majority_wins X (Out : outside X) A (w0 w : world X) id pl pl' us :
  held Out A w0 w id pl pl' -> stand_for A w id [Yes] us -> winning w pl us -> p_status pl' = Passed 0 (support A w id Yes).
Proof.
  intros HH HU (H1 & H2 & H3 & H4). destruct (held_counts X Out A w0 w id pl pl' HH) as (V & Hs).
  eapply verdict_functional; [exact V|]. apply (win_verdict _ _ _ _ _ _ _ _ (power w us)); auto; [apply below; exact Hs|].
  apply stand_power in HU. rewrite lsum_cons in HU. cbn in HU. lia.
Qed.

Lemma vetoes_stop X (Out : outside X) A (w0 w : world X) id pl pl' us :
  held Out A w0 w id pl pl' -> stand_for A w id [Veto] us -> vetoing w pl us -> p_status pl' = Rejected IsVetoOutcome.
Proof.
  intros HH HU (H1 & H2). destruct (held_counts X Out A w0 w id pl pl' HH) as (V & Hs).
  eapply verdict_functional; [exact V|]. apply (veto_verdict _ _ _ _ _ _ _ _ (power w us)); auto; [apply below; exact Hs|].
  apply stand_power in HU. rewrite lsum_cons in HU. cbn in HU. lia.
Qed.

Lemma minority_blocks X (Out : outside X) A (w0 w : world X) id pl pl' us :
  held Out A w0 w id pl pl' -> stand_for A w id [No; Veto] us -> blocking w pl us -> exists r, p_status pl' = Rejected r.
Proof.
  intros HH HU HB. destruct (held_counts X Out A w0 w id pl pl' HH) as (V & Hs).
  eapply (block_verdict _ _ _ _ _ _ _ _ (power w us)); [exact (below X A w id Hs)| |exact HB|exact V].
  apply stand_power in HU. rewrite !lsum_cons in HU. cbn in HU. lia.
Qed.

Lemma silence_stops X (Out : outside X) A (w0 w : world X) id pl pl' us :
  held Out A w0 w id pl pl' -> silent A w id us -> needed w pl us -> p_status pl' = Rejected QuorumNotReached.
Proof.
  intros HH HU HB. destruct (held_counts X Out A w0 w id pl pl' HH) as (V & Hs).
  eapply verdict_functional; [exact V|]. apply (quorum_verdict _ _ _ _ _ _ _ _ (power w us)); [|exact HB]. apply all_below; assumption.
Qed.

Lemma same_final pl pl' total : status_only pl pl' -> final_status pl' total = final_status pl total.
Proof. intros (s & ->). reflexivity. Qed.

(** Whatever happened after the end, the will of such a majority can be carried out at anybody's request. *)
Lemma majority_executes X (Out : outside X) A birth w0 before later id ends p pl pl' us e s w'' :
  new_dao A w0 -> free_calls Out -> created_by birth (w_member w0) -> created_by birth (w_council w0) -> timely birth (before ++ later) ->
  let w := world_run Out A w0 before in let w' := world_run Out A w0 (before ++ later) in
  lasting w -> lasting w' -> calm A w' ->
  closing w General id ends -> oget (g_polls (w_gov w)) id = Some pl -> seconds_before ends before -> all_after ends later ->
  stand_for A w id [Yes] us -> winning w pl us ->
  oget (ct_proposals (w_ctl w')) id = Some p -> pi_executed_at p = None -> oget (g_polls (w_gov w')) id = Some pl' ->
  ends <= e_time e -> restricted_by Out A w' (a_enterprise A) s = Ok false ->
  let total := weight_now w General in let v := Passed 0 (support A w id Yes) in
  (exists gas d, go Out A gas w' e (JMsg s (ask_resolution A id)) = Ok (w'', d)) <->
  concluded Out A e id (handed A p v) v (judged A w' e s id p pl' total v) w''.
Proof.
  intros HN HFC B1 B2 HT w w' HLw HL HC HCl Hpl HB HAf HU HW Hp Hx Hpl' He Hr total v.
  assert (HT0 : timely birth before) by (destruct (timely_app _ _ _ HT) as (T1 & _); exact T1).
  assert (HCw : calm A w).
  { assert (HC1 := HC). assert (HL1 := HL). unfold w' in HC1, HL1. rewrite run_app in HC1, HL1. destruct HL1 as (_ & L2). fold w in HC1, L2.
    pose proof (run_size Out A later w) as S1. assert (SW : size w < M64) by apply HLw.
    destruct (run_ahead Out A (nd_addrs _ _ HN) before w0 (new_wired _ _ HN) SW) as (HW1 & _). fold w in HW1.
    destruct (run_ahead Out A (nd_addrs _ _ HN) later _ HW1 L2) as (_ & AH & _). exact (calm_back _ _ _ AH HC1). }
  destruct (run_facts X Out A w0 before HN (timely_0 _ _ HT0) HLw HCw) as (K & _). fold w in K.
  destruct (whole_weight X Out A birth w0 before General id ends HN B1 B2 HT0 HLw HCw HCl HB) as (EW & Q). destruct (Q eq_refl) as (_ & HF). fold w in EW, HF.
  destruct (votes_final X Out A birth w0 before later General id ends pl HN B1 B2 HT HL HC HCl Hpl (seconds_all _ _ HB) HAf) as (_ & (q & Hq & HSO) & EW' & _).
  fold w w' in Hq, EW'. assert (q = pl') by congruence. subst q.
  assert (LT : last_time before < ends).
  { change (last_time before) with (last_from 0 before). apply (last_from_all (fun t => t < ends)); [apply seconds_all; exact HB|]. eapply closing_some; eassumption. }
  assert (HO : open_poll w General id (last_time before)).
  { destruct HCl as (p1 & q & H1 & H2 & H3 & H4). exists p1, q, ends. auto. }
  assert (T : forall o, tally (w_gov w) id o = support A w id o).
  { intros o. apply (support_counted X Out A w0 before w (last_time before) id pl o HN eq_refl (timely_0 _ _ HT0) HLw HCw (N.le_refl _) HO Hpl). }
  assert (Hs : sum_ok (members_of (w_member w))) by (destruct (c_small _ _ _ K) as (Hi & _); apply Hi).
  assert (RU : ruled (w_gov w) id pl total v).
  { unfold ruled. rewrite !T. destruct HW as (H1 & H2 & H3 & H4). apply (win_verdict _ _ _ _ _ _ _ _ (power w us)); auto; [apply below; exact Hs|].
    apply stand_power in HU. rewrite lsum_cons in HU. cbn in HU. lia. }
  rewrite EW in HF. fold total in HF.
  assert (FS : v = final_status pl' total).
  { rewrite (same_final _ _ _ HSO). apply (ruled_final X Out A w0 before w id pl total v HN (timely_0 _ _ HT0) eq_refl HLw HCw Hpl HF). exact RU. }
  assert (EE : p_ends_at pl' = ends).
  { destruct HCl as (p1 & q & H1 & H2 & H3 & H4). assert (q = pl) by congruence. subst q.
    destruct HSO as (s1 & ->). cbn [p_ends_at]. destruct (c_ginv _ _ _ K) as (Hg & _). destruct (Hg _ _ Hpl) as (_ & _ & G & _). symmetry. exact (G _ H4). }
  assert (TY : pi_type p = General).
  { destruct HCl as (p1 & q & H1 & H2 & _). destruct (record_kept X Out A w0 before later id p1 HN HL H1) as (p2 & G1 & G2 & _). fold w' in G1. congruence. }
  assert (ET : total = weight_then w' (pi_type p) (p_ends_at pl')). { rewrite TY, EE, EW', EW. reflexivity. }
  rewrite (resolvable_exact X Out A w0 (before ++ later) w' e s id p pl' w'' HN HFC eq_refl HL Hp Hx Hpl') with (total := total) (v := v); auto; [|rewrite EE; exact He].
  split; [intros (_ & H); exact H|]. intros H. split; [|exact H]. destruct HW as (H1 & _). apply stand_power in HU. rewrite lsum_cons in HU. cbn in HU.
  pose proof (below X A w id Hs) as HBl. unfold total. lia.
Qed.

Lemma sharp q t ve S T : S <= T -> T <> 0 ->
  (forall y n a v, S <= y -> y + n + a + v <= T -> verdict q t ve y n a v T (Passed 0 y)) ->
  T < 2 * S /\ reaches S T q /\ reaches S T t /\ ~ reaches (T - S) T ve.
Proof.
  intros HS HT H.
  assert (V1 := H S 0 0 0 (N.le_refl _) ltac:(lia)). assert (V2 := H S (T - S) 0 0 (N.le_refl _) ltac:(lia)). assert (V3 := H S 0 0 (T - S) (N.le_refl _) ltac:(lia)).
  inversion V1 as [ | |Q1 Q2 Q3 Q4| | | ]; subst. inversion V2 as [ | |R1 R2 R3 R4| | | ]; subst. inversion V3 as [ | |P1 P2 P3 P4| | | ]; subst.
  replace (S + 0 + 0 + 0) with S in Q1 by lia. replace (S + (T - S) + 0) with T in R3, R4 by lia. replace (S + 0 + (T - S)) with T in P2 by lia.
  split; [|split; [exact Q1|split; [exact R3|exact P2]]].
  destruct (N.lt_ge_cases T (2 * S)) as [|L]; [assumption|]. exfalso. assert (T - S < S); [|lia]. apply R4.
  eapply reaches_cross; [exact R3|assumption|assumption|]. apply N.mul_le_mono_r. lia.
Qed.

(** No smaller group can be sure of it: these conditions are what winning against every answer of the others takes. *)
Lemma winning_sharp X (w : world X) pl us : let s := power w us in let t := weight_now w General in s <= t -> t <> 0 ->
  (winning w pl us <->
   forall y n a v, s <= y -> y + n + a + v <= t -> verdict (p_quorum pl) (p_threshold pl) (veto_share pl) y n a v t (Passed 0 y)).
Proof.
  intros s t Hs Ht. split; [|apply sharp; assumption].
  intros (H1 & H2 & H3 & H4) y n a v Hy Hsum. apply (win_verdict _ _ _ _ _ _ _ _ s); auto.
Qed.
