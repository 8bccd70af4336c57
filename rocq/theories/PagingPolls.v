(** Every poll belongs to a proposal, unless custom messages open polls of their own. *)
From Verif Require Import Base OMap OMapLemmas Assets PollModel PollSpec PollProofs PollFacts FundsModel MemberModel MemberSpec
  MemberProofs MemberFacts Msgs ControllerModel ControllerSpec ControllerProofs ControllerFacts TreasuryModel EnterpriseModel
  EnterpriseSpec EnterpriseFacts OutpostsModel WorldModel WorldSpec WorldMember WorldProofs WorldRun FacadeModel PagingSpec.

Section W.
Context {X : Type}.
Variable Out : outside X.
Variable A : addrs.
Hypothesis HA : NoDup (dao_addrs A).

Local Notation world := (world X).
Local Notation go := (go Out A).
Local Notation ctl_addr := (a_controller A).
Local Notation gov_addr := (a_governance A).

Definition paired (w : world) : Prop :=
  forall id pl, oget (g_polls (w_gov w)) id = Some pl -> oget (ct_proposals (w_ctl w)) id <> None.

Definition no_poll (m : cosmos_msg) : Prop := forall c more, m <> WasmExecute gov_addr (ToGovernance (GCreatePoll c)) more.

Definition clean (j : job) : Prop :=
  match j with
  | JMsg s m => s = ctl_addr -> no_poll m
  | JSubs self subs => self = ctl_addr -> Forall (fun x => no_poll (sm_msg x)) subs
  end.

Lemma safe_no_poll m : safe A m -> no_poll m.
Proof. intros H c more ->. cbn in H. destruct H as (_ & H & _). exact (H eq_refl _ eq_refl). Qed.

Lemma side_back (w w' : world) : ahead w w' -> no_side_polls A w' -> no_side_polls A w.
Proof.
  intros ((_ & _ & K) & l & E) H id p m coins c more Ha Hp Hm. destruct (K _ _ Hp) as (p' & Hp' & Hc & _).
  eapply H; [rewrite E; apply in_or_app; right; exact Ha|exact Hp'|]. rewrite (customs_content _ _ Hc). exact Hm.
Qed.

Lemma counts_paired g g' : only_counts_change g g' -> forall id pl, oget (g_polls g') id = Some pl -> oget (g_polls g) id <> None.
Proof. intros (_ & H) id pl Hp. apply query_poll_ok, H in Hp. destruct Hp as (p & Hp). apply query_poll_ok in Hp. congruence. Qed.

Lemma gov_no_new g e s m g' d : gov_execute g e s m = Ok (g', d) -> (forall c, m <> GCreatePoll c) ->
  forall id pl, oget (g_polls g') id = Some pl -> oget (g_polls g) id <> None.
Proof.
  intros H Hm id pl Hp. apply gov_execute_ok in H. destruct H as (_ & H). destruct m.
  - destruct (Hm _ eq_refl).
  - destruct H as (H & _). eapply counts_paired; [eapply cast_only_counts; exact H|exact Hp].
  - destruct H as (H & _). eapply counts_paired; [eapply update_only_counts; exact H|exact Hp].
  - destruct H as (H & _). apply end_poll_ok in H. destruct H as (q & Hq & -> & _). cbn [set_poll g_polls] in Hp. rewrite oget_oset in Hp.
    destruct (N.eqb_spec id0 id) as [<-|]; congruence.
Qed.

Lemma updates_no_new e changes : forall g g', updates e g changes = Ok g' -> forall id pl, oget (g_polls g') id = Some pl -> oget (g_polls g) id <> None.
Proof.
  induction changes as [|ch l IH]; intros g g' H id pl Hp; unfold updates in *; cbn [fold_res] in H; [inversion H; subst; congruence|].
  apply bind_ok in H. destruct H as (g1 & H1 & H). pose proof (IH _ _ H _ _ Hp) as Hq. destruct (oget (g_polls g1) id) as [q|] eqn:Eq; [|congruence].
  eapply counts_paired; [eapply update_only_counts; exact H1|exact Eq].
Qed.

Lemma turn_paired e (w w1 : world) sender m subs1 : turn Out A w e sender m w1 subs1 -> paired w ->
  (forall id p c, m = CExecuteActions id -> sender = ctl_addr -> oget (ct_proposals (w_ctl w)) id = Some p -> In c (customs p) -> no_poll c) ->
  paired w1 /\ clean (JSubs ctl_addr subs1).
Proof.
  intros HT HP HC. destruct HT.
  - split.
    + intros i pl Hi. rewrite H8, oget_oset. destruct (N.eqb_spec id i) as [<-|NE]; [discriminate|]. rewrite H7 in Hi.
      unfold create_poll in H6. bind_inv H6. injection H6 as E6 Ei. rewrite Ei in E6. rewrite <- E6 in Hi. cbn [g_polls] in Hi. rewrite oget_oset in Hi. apply N.eqb_neq in NE. rewrite NE in Hi. eapply HP. exact Hi.
    + intros _. eapply Forall_impl; [|exact H4]. intros x (to & t & ->) cc more. cbn. discriminate.
  - split; [|intros _; constructor]. intros i pl Hi. rewrite H4 in Hi. rewrite H7. destruct (N.eqb_spec id i); [discriminate|].
    pose proof (counts_paired _ _ (cast_only_counts _ _ _ _ _ _ _ H3) _ _ Hi) as Hq. destruct (oget (g_polls (w_gov w)) i) eqn:Eq; [eapply HP; exact Eq|congruence].
  - split; [|intros _; constructor]. intros i pl Hi. rewrite H4 in Hi. rewrite H5.
    pose proof (counts_paired _ _ (cast_only_counts _ _ _ _ _ _ _ H3) _ _ Hi) as Hq. destruct (oget (g_polls (w_gov w)) i) eqn:Eq; [eapply HP; exact Eq|congruence].
  - split.
    + intros i q Hi. rewrite H6, oget_oset. destruct (N.eqb_spec id i) as [<-|NE]; [discriminate|]. rewrite H3 in Hi. apply end_poll_ok in H2. destruct H2 as (q0 & _ & -> & _).
      cbn [set_poll g_polls] in Hi. rewrite oget_oset in Hi. apply N.eqb_neq in NE. rewrite NE in Hi. eapply HP. exact Hi.
    + intros _. apply Forall_app. split; [destruct (p_status pl); repeat constructor; intros c more; cbn; unfold run_order; discriminate|].
      eapply Forall_impl; [|exact H8]. intros x (_ & Hx & _). apply safe_no_poll. exact Hx.
  - split; [|intros _; repeat constructor; intros c more; cbn; discriminate]. intros i pl Hi. rewrite H2 in Hi. rewrite H3.
    pose proof (updates_no_new _ _ _ _ H1 _ _ Hi) as Hq. destruct (oget (g_polls (w_gov w)) i) eqn:Eq; [eapply HP; exact Eq|congruence].
  - split; [intros i pl Hi; rewrite H2 in Hi; rewrite H3; eapply HP; exact Hi|]. intros _. eapply Forall_impl; [|exact H4]. intros x (_ & [Hx|((Hx & _) & _)]); [|apply safe_no_poll; exact Hx].
    eapply HC; [reflexivity|exact H|exact H0|exact Hx].
  - split; [intros i pl Hi; rewrite H1 in Hi; rewrite H2; eapply HP; exact Hi|]. intros _. eapply Forall_impl; [|exact H3]. intros x (_ & (Hx & _) & _). apply safe_no_poll. exact Hx.
Qed.

Lemma quiet_paired (w w1 : world) : quiet A w w1 -> paired w -> paired w1.
Proof. intros (Q1 & Q2 & _) H. unfold paired. rewrite Q1, Q2. exact H. Qed.

Lemma go_paired n : forall (w : world) e j w' d, go n w e j = Ok (w', d) -> wired A w ->
  match j with JSubs self subs => self = ctl_addr -> fine subs | JMsg _ _ => True end ->
  size w' < M64 -> no_side_polls A w' -> clean j -> paired w -> paired w'.
Proof.
  induction n as [n IH] using lt_wf_ind. intros w e j w' d H HW HF HS HN HC HP.
  destruct j as [s m|self [|x rest]].
  - destruct n as [|n]; [discriminate|].
    apply go_msg in H. destruct H as [(to & wm & coins & x & w1 & subs & d' & -> & _ & Hh & Hg)|(NE & Ho)].
    + destruct (start_wired A w s (WasmExecute to wm coins) x HW) as (W0 & K0 & S0).
      assert (LG : w_log (set_ext (note w s (WasmExecute to wm coins)) x) = (s, WasmExecute to wm coins) :: w_log w) by reflexivity.
      assert (HP0 : paired (set_ext (note w s (WasmExecute to wm coins)) x)) by exact HP.
      set (w0 := set_ext (note w s (WasmExecute to wm coins)) x) in *.
      pose proof (go_size _ _ _ _ _ _ _ _ Hg) as GS.
      apply handle_cases in Hh. destruct Hh as [(-> & cm & s' & -> & He & -> & _)|[(-> & gm & g & -> & He & -> & ->)|[(-> & mm & s' & outs & -> & He & -> & -> & _)|(N1 & N2 & N3 & Q)]]].
      * destruct (ctl_turn Out A HA _ _ _ _ _ _ _ _ _ _ W0 He Hg) as (n' & w1 & subs1 & L & T & d2 & G).
        pose proof (go_size _ _ _ _ _ _ _ _ G) as GS1.
        pose proof T as TW. apply turn_wired in TW; [|assumption|lia]. destruct TW as (W1 & K1 & F1).
        destruct (layer1 Out A HA _ _ _ _ _ _ G W1 (fun _ => F1) HS) as (_ & K2).
        assert (LW : exists l, w_log w' = l ++ w_log w0).
        { destruct (go_log _ _ _ _ _ _ _ _ Hg) as (l & El). exists l. exact El. }
        destruct (turn_paired _ _ _ _ _ _ T HP0) as (P1 & C1).
        { intros id p c -> -> Hp Hc cc more. pose proof (side_back w0 w' (conj (kept_trans _ _ _ K1 K2) LW) HN) as HN0.
          apply (HN0 id p c coins cc more); [rewrite LG; left; reflexivity|exact Hp|exact Hc]. }
        exact (IH n' ltac:(lia) _ _ _ _ _ G W1 (fun _ => F1) HS HN C1 P1).
      * apply go_nil in Hg. destruct Hg as [-> _]. pose proof He as He'. apply gov_execute_ok in He'. destruct He' as (Es & _).
        change (g_admin (w_gov w0)) with (g_admin (w_gov w)) in Es. rewrite (wi_admin _ _ HW) in Es.
        intros i pl Hi. change (oget (g_polls g) i = Some pl) in Hi. change (oget (ct_proposals (w_ctl w)) i <> None).
        assert (Hm : forall c, gm <> GCreatePoll c) by (intros c ->; exact (HC Es c coins eq_refl)).
        pose proof (gov_no_new _ _ _ _ _ _ He Hm _ _ Hi) as Hq. change (g_polls (w_gov w0)) with (g_polls (w_gov w)) in Hq.
        destruct (oget (g_polls (w_gov w)) i) eqn:Eq; [eapply HP; exact Eq|congruence].
      * destruct (member_wired A w0 s' W0) as (W1 & K1).
        assert (NM : a_membership A <> ctl_addr) by (apply (member_not_ctl A HA)).
        exact (IH n ltac:(lia) _ _ _ _ _ Hg W1 (fun E => False_ind _ (NM E)) HS HN (fun E => False_ind _ (NM E)) HP0).
      * destruct (quiet_wired A _ _ Q W0) as (W1 & K1).
        exact (IH n ltac:(lia) _ _ _ _ _ Hg W1 (fun E => False_ind _ (N1 E)) HS HN (fun E => False_ind _ (N1 E)) (quiet_paired _ _ Q HP0)).
    + apply other_quiet in Ho. exact (quiet_paired _ _ Ho HP).
  - apply go_nil in H. destruct H as [-> _]. exact HP.
  - apply go_cons in H. destruct H as (n' & -> & H).
    assert (HR : forall wa id r wb more wc dc wd dd, sm_reply x = ReplySuccess id \/ sm_reply x = ReplyAlways id ->
      wired A wa -> paired wa -> on_reply Out A wa e self id r = Ok (wb, more) -> go n' wb e (JSubs self more) = Ok (wc, dc) ->
      go n' wc e (JSubs self rest) = Ok (wd, dd) -> size wd < M64 -> no_side_polls A wd -> paired wd).
    { intros wa id r wb more wc dc wd dd HI Wa Ka Hr Hg1 Hg2 Sd Nd.
      pose proof (go_size _ _ _ _ _ _ _ _ Hg2) as S2.
      assert (Wb : wired A wb /\ paired wb /\ (self = ctl_addr -> fine more) /\ clean (JSubs self more)).
      { apply reply_cases in Hr. destruct Hr as [(-> & s' & Hr & ->)|(NN & Q)].
        - assert (id = 3) as ->. { specialize (HF eq_refl). inversion HF; subst. destruct HI as [E|E], H2 as [F|F]; congruence. }
          apply reply_3 in Hr. destruct Hr as [-> ->]. rewrite set_ctl_same. split; [exact Wa|]. split; [exact Ka|]. split; intros _; constructor.
        - split; [apply (quiet_wired A _ _ Q Wa)|]. split; [exact (quiet_paired _ _ Q Ka)|]. split; intros E; destruct (NN E). }
      destruct Wb as (Wb & Kb & Fb & Cb).
      destruct (layer1 Out A HA _ _ _ _ _ _ Hg1 Wb Fb ltac:(lia)) as (Wc & K1).
      destruct (layer1 Out A HA _ _ _ _ _ _ Hg2 Wc (fun E => Forall_inv_tail (HF E)) Sd) as (_ & K2).
      pose proof (side_back _ _ (conj K2 (go_log _ _ _ _ _ _ _ _ Hg2)) Nd) as Nc.
      pose proof (IH n' ltac:(lia) _ _ _ _ _ Hg1 Wb Fb ltac:(lia) Nc Cb Kb) as Kc.
      exact (IH n' ltac:(lia) _ _ _ _ _ Hg2 Wc (fun E => Forall_inv_tail (HF E)) Sd Nd (fun E => Forall_inv_tail (HC E)) Kc). }
    destruct H as [(w1 & d1 & H1 & [(_ & H2)|(id & w2 & more & w3 & d3 & E & H2 & H3 & H4)])|(id & w2 & more & w3 & d3 & _ & E & H2 & H3 & H4)].
    + pose proof (go_size _ _ _ _ _ _ _ _ H2).
      destruct (layer1 Out A HA _ _ _ _ _ _ H1 HW I ltac:(lia)) as (W1 & _).
      destruct (layer1 Out A HA _ _ _ _ _ _ H2 W1 (fun E => Forall_inv_tail (HF E)) HS) as (_ & K2).
      pose proof (side_back _ _ (conj K2 (go_log _ _ _ _ _ _ _ _ H2)) HN) as N1.
      pose proof (IH n' ltac:(lia) _ _ _ _ _ H1 HW I ltac:(lia) N1 (fun E => Forall_inv (HC E)) HP) as K1.
      exact (IH n' ltac:(lia) _ _ _ _ _ H2 W1 (fun E => Forall_inv_tail (HF E)) HS HN (fun E => Forall_inv_tail (HC E)) K1).
    + assert (size w1 < M64).
      { pose proof (go_size _ _ _ _ _ _ _ _ H3). pose proof (go_size _ _ _ _ _ _ _ _ H4). apply reply_log in H2. unfold size in *. rewrite H2 in *. lia. }
      destruct (layer1 Out A HA _ _ _ _ _ _ H1 HW I ltac:(lia)) as (W1 & _).
      assert (N1 : no_side_polls A w1).
      { assert (Wb : wired A w2 /\ kept w1 w2 /\ (self = ctl_addr -> fine more)).
        { pose proof H2 as Hr. apply reply_cases in Hr. destruct Hr as [(-> & s' & Hr & ->)|(NN & Q)].
          - assert (id = 3) as ->. { specialize (HF eq_refl). inversion HF as [|? ? F0 ?]; subst. destruct E as [E|E], F0 as [F|F]; congruence. }
            apply reply_3 in Hr. destruct Hr as [-> ->]. rewrite set_ctl_same. split; [exact W1|]. split; [apply kept_refl|]. intros _; constructor.
          - destruct (quiet_wired A _ _ Q W1) as (Wq & Kq). split; [exact Wq|]. split; [exact Kq|]. intros E'; destruct (NN E'). }
        destruct Wb as (W2 & K12 & F2). pose proof (go_size _ _ _ _ _ _ _ _ H4).
        destruct (layer1 Out A HA _ _ _ _ _ _ H3 W2 F2 ltac:(lia)) as (W3 & K23).
        destruct (layer1 Out A HA _ _ _ _ _ _ H4 W3 (fun E => Forall_inv_tail (HF E)) HS) as (_ & K34).
        apply (side_back w1 w'); [|exact HN]. split; [exact (kept_trans _ _ _ K12 (kept_trans _ _ _ K23 K34))|].
        destruct (go_log _ _ _ _ _ _ _ _ H3) as (l3 & E3). destruct (go_log _ _ _ _ _ _ _ _ H4) as (l4 & E4). apply reply_log in H2. exists (l4 ++ l3). rewrite E4, E3, H2, app_assoc. reflexivity. }
      pose proof (IH n' ltac:(lia) _ _ _ _ _ H1 HW I ltac:(lia) N1 (fun E => Forall_inv (HC E)) HP) as K1.
      eapply HR; eassumption.
    + eapply HR; try eassumption. right; exact E.
Qed.

Lemma run_paired ts : forall w : world, wired A w -> size (world_run Out A w ts) < M64 -> no_side_polls A (world_run Out A w ts) -> paired w -> paired (world_run Out A w ts).
Proof.
  induction ts as [|t ts IH]; intros w HW HS HN HP; [exact HP|].
  change (world_run Out A w (t :: ts)) with (world_run Out A (world_step Out A w t) ts) in *. pose proof (run_size Out A ts (world_step Out A w t)) as S1.
  destruct (step_cases Out A w t) as [E|(d & Hd & H)]; [rewrite E in *; apply IH; assumption|].
  assert (H1 : wired A (world_step Out A w t)) by (eapply layer1; [exact HA|exact H|exact HW|exact I|lia]).
  apply IH; try assumption. destruct (run_ahead Out A HA ts _ H1 HS) as (_ & A2 & _).
  destruct (dao_signer A _ Hd) as (N1 & _).
  eapply go_paired; [exact H|exact HW|exact I|lia|exact (side_back _ _ A2 HN)|intros E; contradiction|exact HP].
Qed.
End W.

Lemma polls_paired X (Out : outside X) A w0 ts w : new_dao A w0 -> w = world_run Out A w0 ts -> lasting w -> no_side_polls A w ->
  forall id pl, oget (g_polls (w_gov w)) id = Some pl -> oget (ct_proposals (w_ctl w)) id <> None.
Proof.
  intros HN -> HL HS. refine (run_paired Out A (nd_addrs _ _ HN) ts w0 (new_wired A w0 HN) _ HS _).
  - destruct HL as (_ & HL). exact HL.
  - intros id pl Hp. rewrite (nd_governance _ _ HN) in Hp. cbn in Hp. rewrite oget_empty in Hp. discriminate.
Qed.
