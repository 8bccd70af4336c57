(** What holds of open proposals throughout the life of a DAO. *)
From Verif Require Import Base OMap OMapLemmas Assets PollModel PollSpec PollProofs PollFacts FundsModel FundsSpec MemberModel MemberSpec MemberProofs MemberFacts Msgs
  ControllerModel ControllerSpec ControllerProofs ControllerFacts TreasuryModel EnterpriseModel OutpostsModel WorldModel WorldSpec WorldMember
  WorldProofs WorldRun WorldFacts WorldInduct LiveSpec.

(** * Polls keep their end *)
Definition ends_kept (g g' : gov) : Prop :=
  g_count g <= g_count g' /\ forall id pl, id <= g_count g -> oget (g_polls g) id = Some pl -> exists pl', oget (g_polls g') id = Some pl' /\ p_ends_at pl' = p_ends_at pl.

Lemma ends_refl g : ends_kept g g. Proof. split; [lia|]. eauto. Qed.
Lemma ends_trans a b c : ends_kept a b -> ends_kept b c -> ends_kept a c.
Proof.
  intros (L1 & H1) (L2 & H2). split; [lia|]. intros id pl Hid Hpl. destruct (H1 _ _ Hid Hpl) as (pl1 & A1 & A2).
  destruct (H2 id pl1 ltac:(lia) A1) as (pl2 & B1 & B2). exists pl2. split; [exact B1|congruence].
Qed.
Lemma ends_evolves g g' : g_count g <= g_count g' -> poll_evolves g g' -> ends_kept g g'.
Proof.
  intros L H. split; [exact L|]. intros id pl _ Hpl. destruct (H _ _ Hpl) as (pl' & A1 & A2 & _). exists pl'. split; [exact A1|].
  unfold terms in A2. inversion A2. reflexivity.
Qed.
Lemma ends_create g e c g' id : g_count g + 1 < M64 -> create_poll g e c = Ok (g', id) -> ends_kept g g'.
Proof.
  intros Hc H. destruct (create_facts _ _ _ _ _ Hc H) as (-> & E2 & _). split; [lia|]. intros i p Hi Hp.
  unfold create_poll in H. bind_inv H. inversion H; subst; clear H. cbn in *.
  assert (E : u64_add (g_count g) 1 = g_count g + 1) by (unfold u64_add; apply N.mod_small; lia).
  rewrite E, oget_oset_ne by lia. eauto.
Qed.
Lemma ends_cast g e id o voter amount g' : cast_vote g e id o voter amount = Ok g' -> ends_kept g g'.
Proof. intros H. apply ends_evolves; [apply cast_count in H; lia|eapply cast_evolves; exact H]. Qed.
Lemma ends_end g e id total a b g' : end_poll g e id total a b = Ok g' -> ends_kept g g'.
Proof.
  intros H. apply end_poll_ok in H. destruct H as (q & Hq & -> & _). split; [cbn; lia|]. intros i p _ Hp. cbn.
  rewrite oget_oset. destruct (N.eqb_spec id i) as [<-|]; [|eauto]. rewrite Hp in Hq. inversion Hq; subst. eexists. split; [reflexivity|]. reflexivity.
Qed.
Lemma ends_update g e u amount g' : update_votes g e u amount = Ok g' -> ends_kept g g'.
Proof.
  intros H. unfold update_votes in H. bind_inv H.
  refine (fold_res_inv (fun s => ends_kept g s) _ _ _ g g' (ends_refl g) H).
  intros s0 v s' _ Hs Hu. apply update_vote_ok in Hu. destruct Hu as [->|(o & _ & Hu)]; [auto|].
  eapply ends_trans; [exact Hs|]. eapply ends_cast; eassumption.
Qed.
Lemma ends_updates e changes : forall g g', updates e g changes = Ok g' -> ends_kept g g'.
Proof.
  induction changes as [|ch l IH]; intros g g' H; unfold updates in *; cbn [fold_res] in H; [inversion H; apply ends_refl|].
  apply bind_ok in H. destruct H as (g1 & H1 & H). eapply ends_trans; [eapply ends_update; exact H1|apply IH; exact H].
Qed.
Lemma ends_execute g e s m g' r : g_count g + 1 < M64 -> gov_execute g e s m = Ok (g', r) -> ends_kept g g'.
Proof.
  intros Hc H. apply gov_execute_ok in H. destruct H as [_ H]. destruct m.
  - destruct H as (id & H & _). eapply ends_create; eassumption.
  - destruct H as [H _]. eapply ends_cast; eassumption.
  - destruct H as [H _]. eapply ends_update; eassumption.
  - destruct H as [H _]. eapply ends_end; eassumption.
Qed.

Section Open.
Context {X : Type}.
Variable Out : outside X.
Variable A : addrs.
Hypothesis HA : NoDup (dao_addrs A).

Lemma turn_ends w e s m w1 subs : wired A w -> size w1 < M64 -> turn Out A w e s m w1 subs -> ends_kept (w_gov w) (w_gov w1).
Proof.
  intros HW HS T. pose proof (wi_count _ _ HW) as HC. destruct T; subst.
  - pose proof (stepped_size _ _ _ _ H5) as SS. cbn in SS. eapply ends_create; [|eassumption]. lia.
  - eapply ends_cast; eassumption.
  - eapply ends_cast; eassumption.
  - eapply ends_end; eassumption.
  - eapply ends_updates; eassumption.
  - rewrite H2. apply ends_refl.
  - rewrite H1. apply ends_refl.
Qed.

(** * A proposal's waiting time never outlasts its poll *)
Definition early_ok (w : world X) : Prop :=
  forall id p, oget (ct_proposals (w_ctl w)) id = Some p ->
    exists pl, oget (g_polls (w_gov w)) id = Some pl /\ forall t, pi_earliest p = Some t -> t <= p_ends_at pl.

Lemma early_same w w1 : wired A w -> ends_kept (w_gov w) (w_gov w1) -> early_ok w ->
  (forall id p', oget (ct_proposals (w_ctl w1)) id = Some p' ->
     (exists p, oget (ct_proposals (w_ctl w)) id = Some p /\ pi_earliest p' = pi_earliest p) \/
     (exists pl, oget (g_polls (w_gov w1)) id = Some pl /\ forall t, pi_earliest p' = Some t -> t <= p_ends_at pl)) -> early_ok w1.
Proof.
  intros HW (_ & K) H HE id p' Hp'. destruct (HE _ _ Hp') as [(p & Hp & E)|H1]; [|exact H1].
  destruct (H _ _ Hp) as (pl & Hpl & Ht). destruct (K id pl) as (pl' & Hpl' & E'); [apply (wi_ids _ _ HW) in Hp; lia|exact Hpl|].
  exists pl'. split; [exact Hpl'|]. rewrite E, E'. exact Ht.
Qed.

Lemma early_preserved e : preserved Out A e early_ok.
Proof.
  split.
  - intros w s m x H. exact H.
  - intros w s coins m s' subs w1 subs1 HW H HS _ T ES. apply (early_same w w1 HW (turn_ends _ _ _ _ _ _ HW HS T) H).
    intros id p' Hp'. destruct T.
    + pose proof (stepped_size _ _ _ _ H6) as SS. cbn in SS. pose proof (wi_count _ _ HW) as HC.
      rewrite H9, oget_oset in Hp'. destruct (N.eqb_spec id0 id) as [->|]; [|left; eauto]. injection Hp' as <-. right.
      assert (E0 := H7). apply create_facts in E0; [|lia]. destruct E0 as (E1 & _). unfold create_poll in H7. bind_inv H7. inversion H7; subst.
      match goal with E : _ = w_gov w1 |- _ => rewrite <- E end. cbn [g_polls]. rewrite oget_oset_eq. eexists. split; [reflexivity|]. intros t Ht. congruence.
    + destruct (N.eq_dec id0 id) as [->|NE].
      * destruct (ES _ _ eq_refl _ Hp') as [(q & Hq & E)|(t & pl & E & Hpl & Ht)]; [left; eauto|]. right. exists pl. split; [exact Hpl|].
        intros t' Ht'. congruence.
      * left. rewrite H8 in Hp'. rewrite (proj2 (N.eqb_neq _ _) NE) in Hp'. eauto.
    + left. rewrite H6 in Hp'. eauto.
    + left. rewrite H7, oget_oset in Hp'. destruct (N.eqb_spec id0 id) as [->|]; [|eauto]. injection Hp' as <-. exists p. split; [assumption|reflexivity].
    + left. rewrite H4 in Hp'. eauto.
    + left. rewrite H4 in Hp'. eauto.
    + left. rewrite H3 in Hp'. eauto.
  - intros w s m g d HW H HS HG id p Hp. pose proof (wi_count _ _ HW) as HC. cbn [set_gov w_gov w_ctl] in *.
    destruct (H _ _ Hp) as (pl & Hpl & Ht).
    destruct (ends_execute _ _ _ _ _ _ HS HG) as (_ & K). destruct (K id pl) as (pl' & Hpl' & E'); [apply (wi_ids _ _ HW) in Hp; lia|exact Hpl|].
    exists pl'. split; [exact Hpl'|]. rewrite E'. exact Ht.
  - intros w s coins m st outs HW H _. exact H.
  - intros w s coins m st outs HW H _. exact H.
  - intros w w1 H E1 E2 _ _ id p Hp. rewrite E1 in Hp. rewrite E2. exact (H _ _ Hp).
Qed.

(** * Weights of the past stay as they are *)
Definition dated (now : N) (st : member_state) : Prop :=
  exists e i st0 cs, member_instantiate e i = Ok st0 /\ ordered_upto (ts_seconds (e_time e)) (checkpoints_by_seconds i) /\
    rising call_second (ts_seconds (e_time e)) cs /\ ts_seconds (e_time e) <= now /\ (forall c, In c cs -> call_second c <= now) /\
    st = member_run st0 cs.

Lemma created_dated now st : created_by now st -> dated (ts_seconds now) st.
Proof. intros (e & i & H1 & H2 & H3). exists e, i, st, []. repeat split; try assumption. intros c []. Qed.
Lemma dated_later a b st : a <= b -> dated a st -> dated b st.
Proof.
  intros L (e & i & st0 & cs & H1 & H2 & H3 & H4 & H5 & H6). exists e, i, st0, cs. repeat split; try assumption; [lia|].
  intros c Hc. apply H5 in Hc. lia.
Qed.

Lemma rising_snoc cs c : forall from, rising call_second from cs -> from <= call_second c -> (forall x, In x cs -> call_second x <= call_second c) ->
  rising call_second from (cs ++ [c]).
Proof.
  induction cs as [|x cs IH]; intros from H1 H2 H3; cbn [app rising]; [split; [exact H2|exact I]|]. destruct H1 as (H1 & H1').
  split; [exact H1|]. apply IH; [exact H1'|apply H3; left; reflexivity|]. intros y Hy. apply H3. right. exact Hy.
Qed.

Lemma dated_call now st c st' outs : dated now st -> now <= call_second c ->
  member_execute (mc_oracle c) st (mc_env c) (mc_sender c) (mc_coins c) (mc_msg c) = Ok (st', outs) ->
  dated (call_second c) st' /\
  forall t, ts_seconds t <= call_second c -> query_total_weight (members_of st') (AtTime t) = query_total_weight (members_of st) (AtTime t).
Proof.
  intros (e & i & st0 & cs & H1 & H2 & H3 & H4 & H5 & ->) L H.
  assert (E : st' = member_run st0 (cs ++ [c])).
  { unfold member_run. rewrite fold_left_app. cbn [fold_left]. fold (member_run st0 cs). unfold member_step. rewrite H. reflexivity. }
  assert (R : rising call_second (ts_seconds (e_time e)) (cs ++ [c])).
  { apply rising_snoc; [exact H3|lia|]. intros x Hx. apply H5 in Hx. lia. }
  split.
  - exists e, i, st0, (cs ++ [c]). repeat split; try assumption; [lia|]. intros x Hx. apply in_app_iff in Hx. destruct Hx as [Hx|[<-|[]]]; [|lia].
    apply H5 in Hx. lia.
  - intros t Ht. rewrite E, (total_at_time e i st0 (cs ++ [c]) t H1 H2 R), (total_at_time e i st0 cs t H1 H2 H3).
    rewrite filter_app. cbn [filter]. rewrite (proj2 (N.ltb_ge _ _) Ht), app_nil_r. reflexivity.
Qed.

(** * A proposal that cannot be resolved *)
Record stuck (id : N) (ty : proposal_type) (ends now : N) (w : world X) : Prop := mk_stuck {
  sk_open : exists p, oget (ct_proposals (w_ctl w)) id = Some p /\ pi_executed_at p = None /\ pi_type p = ty;
  sk_poll : exists pl, oget (g_polls (w_gov w)) id = Some pl /\ p_ends_at pl = ends;
  sk_past : ends <= now;
  sk_member : dated (ts_seconds now) (w_member w);
  sk_council : dated (ts_seconds now) (w_council w);
  sk_weight : weight_then w ty ends = 0
}.

Lemma seconds_le a b : a <= b -> ts_seconds a <= ts_seconds b.
Proof. intros H. unfold ts_seconds. apply N.div_le_mono; [discriminate|exact H]. Qed.

Lemma stuck_later id ty ends a b w : a <= b -> stuck id ty ends a w -> stuck id ty ends b w.
Proof.
  intros L [H1 H2 H3 H4 H5 H6]. split; try assumption; [lia| |]; (eapply dated_later; [apply seconds_le; exact L|assumption]).
Qed.

Lemma stuck_turn id ty ends w e s coins m s' subs w1 subs1 :
  wired A w -> stuck id ty ends (e_time e) w -> size w1 < M64 ->
  ctl_execute (ctl_oracle_of Out A w) (a_controller A) (w_ctl w) e s coins m = Ok (s', subs) -> turn Out A w e s m w1 subs1 ->
  stuck id ty ends (e_time e) w1.
Proof.
  intros HW [(p & Hp & He & Hty) (pl & Hpl & Hend) H3 H4 H5 H6] HS HX T.
  destruct (turn_ends _ _ _ _ _ _ HW HS T) as (_ & K).
  assert (Hid := wi_ids _ _ HW _ _ Hp).
  assert (HM : w_member w1 = w_member w /\ w_council w1 = w_council w).
  { destruct T; match goal with H : stepped _ _ _ _ |- _ => destruct H as (_ & ? & ? & _) end; auto. }
  destruct HM as (M1 & M2).
  split; [|destruct (K id pl) as (pl' & K1 & K2); [lia|exact Hpl|]; exists pl'; split; [exact K1|congruence]|exact H3|rewrite M1; exact H4|rewrite M2; exact H5|
    unfold weight_then in *; rewrite M1, M2; exact H6].
  assert (NX : m <> CExecuteProposal id).
  { intros ->. destruct (wired_components Out A w HW) as (att & HC).
    pose proof (unresolvable_without_weight (ctl_oracle_of Out A w) (wiring_of A att) (w_ctl w) (a_controller A) e id p pl s coins HC Hp) as U.
    rewrite HX in U. discriminate U.
    - cbn. unfold gov_at. rewrite N.eqb_refl. cbn [bind]. unfold query_poll. rewrite Hpl. reflexivity.
    - lia.
    - rewrite Hend, Hty, <- H6. unfold total_for, weight_then. cbn. unfold members_at. destruct ty; cbn [c_membership c_council wiring_of].
      + rewrite N.eqb_refl. reflexivity.
      + rewrite (proj2 (N.eqb_neq _ _)) by (apply council_not_member; exact HA). rewrite N.eqb_refl. reflexivity. }
  destruct T.
  - match goal with H : stepped _ _ _ _ |- _ => pose proof (stepped_size _ _ _ _ H) as SS end. cbn in SS. pose proof (wi_count _ _ HW) as HC.
    match goal with H : create_poll _ _ _ = _ |- _ => apply create_facts in H; [|lia]; destruct H as (E1 & _) end.
    match goal with H : ct_proposals (w_ctl w1) = _ |- _ => rewrite H end. rewrite oget_oset_ne by lia. eauto.
  - match goal with H : forall i, oget (ct_proposals (w_ctl w1)) i = _ |- _ => rewrite H end. destruct (N.eqb_spec id0 id) as [->|]; [|eauto].
    assert (p0 = p) by congruence. subst p0. exists p'. split; [reflexivity|]. split; [congruence|].
    match goal with H : content p' = content p |- _ => unfold content in H; inversion H end. congruence.
  - match goal with H : ct_proposals (w_ctl w1) = _ |- _ => rewrite H end. eauto.
  - match goal with H : ct_proposals (w_ctl w1) = _ |- _ => rewrite H end. rewrite oget_oset_ne by congruence. eauto.
  - match goal with H : ct_proposals (w_ctl w1) = _ |- _ => rewrite H end. eauto.
  - match goal with H : ct_proposals (w_ctl w1) = _ |- _ => rewrite H end. eauto.
  - match goal with H : ct_proposals (w_ctl w1) = _ |- _ => rewrite H end. eauto.
Qed.

Lemma stuck_preserved id ty ends e : preserved Out A e (stuck id ty ends (e_time e)).
Proof.
  split.
  - intros w s m x H. destruct H as [H1 H2 H3 H4 H5 H6]. split; assumption.
  - intros w s coins m s' subs w1 subs1 HW H HS HX T _. eapply stuck_turn; eassumption.
  - intros w s m g d HW [(p & Hp & He & Hty) (pl & Hpl & Hend) H3 H4 H5 H6] HS HG. split; try assumption; [cbn; eauto|].
    destruct (ends_execute _ _ _ _ _ _ HS HG) as (_ & K). destruct (K id pl) as (pl' & Hpl' & E'); [apply (wi_ids _ _ HW) in Hp; lia|exact Hpl|].
    exists pl'. split; [exact Hpl'|congruence].
  - intros w s coins m st outs HW [H1 H2 H3 H4 H5 H6] HX.
    destruct (dated_call _ _ (mk_mcall (member_oracle_of Out A w (w_member w)) e s coins m) _ _ H4 (N.le_refl _) HX) as (D & Q).
    split; [exact H1|exact H2|exact H3|exact D|exact H5|]. unfold weight_then in *. cbn [w_member w_council set_member] in *. destruct ty; [|exact H6]. rewrite <- H6. apply Q.
    apply seconds_le. exact H3.
  - intros w s coins m st outs HW [H1 H2 H3 H4 H5 H6] HX.
    destruct (dated_call _ _ (mk_mcall (member_oracle_of Out A w (w_council w)) e s coins m) _ _ H5 (N.le_refl _) HX) as (D & Q).
    split; [exact H1|exact H2|exact H3|exact H4|exact D|]. unfold weight_then in *. cbn [w_member w_council set_councillors] in *. destruct ty; [exact H6|]. rewrite <- H6. apply Q.
    apply seconds_le. exact H3.
  - intros w w1 [H1 H2 H3 H4 H5 H6] E1 E2 E3 E4. split; rewrite ?E1, ?E2, ?E3, ?E4; try assumption.
    unfold weight_then in *. rewrite E3, E4. exact H6.
Qed.

(** Both membership contracts are dated throughout. *)
Lemma dated_preserved e : preserved Out A e (fun w => dated (ts_seconds (e_time e)) (w_member w) /\ dated (ts_seconds (e_time e)) (w_council w)).
Proof.
  split.
  - intros w s m x H. exact H.
  - intros w s coins m s' subs w1 subs1 HW H HS HX T _.
    assert (HM : w_member w1 = w_member w /\ w_council w1 = w_council w).
    { destruct T; match goal with H : stepped _ _ _ _ |- _ => destruct H as (_ & ? & ? & _) end; auto. }
    destruct HM as (-> & ->). exact H.
  - intros w s m g d HW H _ _. exact H.
  - intros w s coins m st outs HW (H1 & H2) HX. split; [|exact H2].
    exact (proj1 (dated_call _ _ (mk_mcall (member_oracle_of Out A w (w_member w)) e s coins m) _ _ H1 (N.le_refl _) HX)).
  - intros w s coins m st outs HW (H1 & H2) HX. split; [exact H1|].
    exact (proj1 (dated_call _ _ (mk_mcall (member_oracle_of Out A w (w_council w)) e s coins m) _ _ H2 (N.le_refl _) HX)).
  - intros w w1 H _ _ E1 E2. rewrite E1, E2. exact H.
Qed.
End Open.
