(** A vote is decided at its end: by the votes recorded then and the weight there was. *)
From Verif Require Import Base OMap OMapLemmas Assets PollModel PollSpec PollProofs PollFacts FundsModel FundsSpec MemberModel MemberSpec MemberProofs MemberFacts Msgs
  ControllerModel ControllerSpec ControllerProofs ControllerFacts TreasuryModel EnterpriseModel OutpostsModel WorldModel WorldSpec WorldMember
  WorldProofs WorldRun WorldFacts LiftFacts WorldInduct LiveSpec LiveStuck LiveResults WorldCalm EndSpec.

(** changes of weights leave the votes on a closed poll *)
Lemma update_closed g e voter amount g' id p : update_votes g e voter amount = Ok g' -> oget (g_polls g) id = Some p -> ~ open_at p (e_time e) ->
  (forall u, get_vote g' u id = get_vote g u id) /\ oget (g_polls g') id = Some p.
Proof.
  intros H Hp Hno. unfold update_votes in H. bind_inv H.
  refine (fold_res_inv (fun s => (forall u, get_vote s u id = get_vote g u id) /\ oget (g_polls s) id = Some p) _ _ _ g g' _ H).
  - intros s v s' _ [Hs Hs2] Hu. apply update_vote_ok in Hu. destruct Hu as [->|(o & _ & Hu)]; [auto|].
    pose proof (cast_closed _ _ _ _ _ _ _ _ _ Hu Hs2 Hno) as Hne. destruct (cast_other _ _ _ _ _ _ _ _ Hu Hne) as [H1 H2].
    split; [intros u; rewrite H1; apply Hs|rewrite H2; exact Hs2].
  - auto.
Qed.

Lemma updates_closed e id p changes : forall g g', updates e g changes = Ok g' -> oget (g_polls g) id = Some p -> ~ open_at p (e_time e) ->
  (forall u, get_vote g' u id = get_vote g u id) /\ oget (g_polls g') id = Some p.
Proof.
  induction changes as [|ch l IH]; intros g g' H Hp Hno; unfold updates in *; cbn [fold_res] in H; [inversion H; subst; auto|].
  apply bind_ok in H. destruct H as (g1 & H1 & H). destruct (update_closed _ _ _ _ _ _ _ H1 Hp Hno) as (V1 & P1).
  destruct (IH _ _ H P1 Hno) as (V2 & P2). split; [intros u; rewrite V2; apply V1|exact P2].
Qed.

Lemma final_of_status p s total : final_status (with_status p s) total = final_status p total.
Proof. reflexivity. Qed.

Section End.
Context {X : Type}.
Variable Out : outside X.
Variable A : addrs.
Hypothesis HA : NoDup (dao_addrs A).

(** what stays the same from the end [ends] of the vote on *)
Record settled (ty : proposal_type) (id ends : N) (pl : poll) (V : addr -> option vote) (T now : N) (w : world X) : Prop := mk_settled {
  se_past : ends <= now;
  se_member : dated (ts_seconds now) (w_member w);
  se_council : dated (ts_seconds now) (w_council w);
  se_total : weight_then w ty ends = T;
  se_votes : forall u, get_vote (w_gov w) u id = V u;
  se_type : exists p, oget (ct_proposals (w_ctl w)) id = Some p /\ pi_type p = ty;
  se_poll : exists s, oget (g_polls (w_gov w)) id = Some (with_status pl s) /\ (s = InProgress ends \/ s = final_status pl T)
}.

Lemma closed_poll pl s ends now : p_ends_at pl = ends -> ends <= now -> ~ open_at (with_status pl s) now.
Proof. intros E L (_ & _ & H). cbn [with_status p_ends_at] in H. lia. Qed.

(** the record of a proposal keeps its type *)
Lemma turn_type (w w1 : world X) e s m subs id p : wired A w -> size w1 < M64 -> turn Out A w e s m w1 subs -> oget (ct_proposals (w_ctl w)) id = Some p ->
  exists p', oget (ct_proposals (w_ctl w1)) id = Some p' /\ pi_type p' = pi_type p.
Proof.
  intros W S T Hp. destruct (turn_wired Out A _ _ _ _ _ _ W S T) as (_ & K & _). destruct K as (_ & _ & K).
  destruct (K _ _ Hp) as (p' & Hp' & E & _). exists p'. split; [exact Hp'|]. unfold content in E. congruence.
Qed.

Lemma settled_calmly ty id ends pl V T e : p_ends_at pl = ends -> calmly Out A e (settled ty id ends pl V T (e_time e)).
Proof.
  intros HE. split.
  - intros w s m x [H1 H2 H3 H4 H5 H6 H7]. split; assumption.
  - intros w s coins m s' subs w1 subs1 C [H1 H2 H3 H4 H5 H6 (st & H7 & H8)] HS HX TT _ AN.
    assert (HM : w_member w1 = w_member w /\ w_council w1 = w_council w).
    { destruct TT; match goal with H : stepped _ _ _ _ |- _ => destruct H as (_ & ? & ? & _) end; auto. }
    assert (TY : exists p, oget (ct_proposals (w_ctl w1)) id = Some p /\ pi_type p = ty).
    { destruct H6 as (p & Hp & E). destruct (turn_type _ _ _ _ _ _ _ _ (c_wired _ _ _ C) HS TT Hp) as (p' & Hp' & E'). exists p'. split; [exact Hp'|congruence]. }
    assert (G : (forall u, get_vote (w_gov w1) u id = V u) /\ exists s, oget (g_polls (w_gov w1)) id = Some (with_status pl s) /\ (s = InProgress ends \/ s = final_status pl T)).
    { pose proof (closed_poll pl st ends (e_time e) HE H1) as NO.
      assert (ID : oget (g_polls (w_gov w)) id <> None) by congruence.
      destruct TT.
      - subst g. match goal with H : create_poll _ _ _ = Ok _ |- _ => rename H into HC end.
        destruct (create_status _ _ _ _ _ HC) as (K1 & _ & K3).
        assert (NE : id <> id0).
        { intros ->. destruct (c_ginv _ _ _ C) as (Hp & _). destruct (Hp _ _ H7) as (_ & Hr & _).
          unfold create_poll in HC. bind_inv HC. inversion HC as [[E1 E2]]. pose proof (wi_count _ _ (c_wired _ _ _ C)) as CB.
          assert (SZ : size w + 1 = size w1).
          { match goal with H : stepped _ _ _ _ |- _ => destruct H as (_ & _ & _ & _ & L) end. unfold size. rewrite L, app_length. cbn [map length]. lia. }
          unfold u64_add in E2. rewrite N.mod_small in E2 by lia. lia. }
        split; [intros u; rewrite K3; apply H5|]. exists st. rewrite K1 by exact NE. auto.
      - subst g. match goal with H : cast_vote _ _ _ _ _ _ = Ok _ |- _ => rename H into HC end.
        pose proof (cast_closed _ _ _ _ _ _ _ _ _ HC H7 NO) as NE. destruct (cast_other _ _ _ _ _ _ _ _ HC NE) as (K1 & K2).
        split; [intros u; rewrite K1; apply H5|]. exists st. rewrite K2. auto.
      - subst g. match goal with H : cast_vote _ _ _ _ _ _ = Ok _ |- _ => rename H into HC end.
        pose proof (cast_closed _ _ _ _ _ _ _ _ _ HC H7 NO) as NE. destruct (cast_other _ _ _ _ _ _ _ _ HC NE) as (K1 & K2).
        split; [intros u; rewrite K1; apply H5|]. exists st. rewrite K2. auto.
      - match goal with H : w_gov w1 = g |- _ => rewrite H in * end.
        match goal with H : end_poll _ _ _ _ _ _ = Ok _ |- _ => rename H into HC end.
        destruct (N.eq_dec id0 id) as [->|NE].
        + destruct (wired_components Out A _ (c_wired _ _ _ C)) as (att & HW).
          apply (execute_proposal_ok _ _ _ _ _ _ _ _ _ _ HW) in HX.
          destruct HX as (q & ql & tot & _ & Hq & _ & _ & Hql & Htot & _ & _ & ES).
          assert (ET : GEndPoll id total false early = GEndPoll id tot false (match pi_type q with General => gc_allow_early (ct_config (w_ctl w)) | Council => true end))
            by (eapply AN; [exact ES|eassumption]).
          assert (total = tot) by congruence. subst tot.
          cbn [co_poll ctl_oracle_of c_governance wiring_of] in Hql. unfold gov_at in Hql. rewrite N.eqb_refl in Hql. cbn [bind] in Hql.
          apply query_poll_ok in Hql. rewrite H7 in Hql. injection Hql as <-. cbn [with_status p_ends_at] in Htot. rewrite HE in Htot.
          rewrite (proj2 (N.leb_le _ _) H1) in Htot.
          destruct H6 as (p1 & Hp1 & ETY). assert (q = p1) by congruence. subst p1.
          assert (total = T).
          { rewrite <- H4. unfold weight_then. rewrite <- ETY. unfold total_for in Htot. cbn [co_total ctl_oracle_of c_membership c_council wiring_of] in Htot.
            unfold members_at in Htot. destruct (pi_type q).
            - rewrite N.eqb_refl in Htot. cbn [bind] in Htot. congruence.
            - rewrite (proj2 (N.eqb_neq _ _)) in Htot by (apply council_not_member; exact HA). rewrite N.eqb_refl in Htot. cbn [bind] in Htot. congruence. }
          subst total. apply end_poll_ok in HC. destruct HC as (p2 & Hp2 & -> & _). rewrite H7 in Hp2. injection Hp2 as <-.
          split; [intros u; rewrite get_vote_set_poll; apply H5|].
          exists (final_status pl T). split; [|right; reflexivity]. cbn [set_poll g_polls]. rewrite oget_oset_eq. reflexivity.
        + apply end_poll_ok in HC. destruct HC as (p2 & Hp2 & -> & _). split; [intros u; rewrite get_vote_set_poll; apply H5|].
          exists st. cbn [set_poll g_polls]. rewrite oget_oset_ne by exact NE. auto.
      - subst g. match goal with H : updates _ _ _ = Ok _ |- _ => rename H into HC end.
        destruct (updates_closed _ _ _ _ _ _ HC H7 NO) as (K1 & K2). split; [intros u; rewrite K1; apply H5|]. exists st. auto.
      - match goal with H : w_gov w1 = w_gov w |- _ => rewrite H end. split; [exact H5|eauto].
      - match goal with H : w_gov w1 = w_gov w |- _ => rewrite H end. split; [exact H5|eauto]. }
    destruct HM as (M1 & M2), G as (G1 & G2). split; try assumption; unfold weight_then in *; rewrite ?M1, ?M2; assumption.
  - intros w s coins m st outs C [H1 H2 H3 H4 H5 H6 H7] HX.
    destruct (dated_call _ _ (mk_mcall (member_oracle_of Out A w (w_member w)) e s coins m) _ _ H2 (N.le_refl _) HX) as (D1 & Q).
    split; try assumption. rewrite <- H4. unfold weight_then. cbn [w_member w_council set_member].
    destruct ty; [|reflexivity]. apply Q. apply seconds_le. exact H1.
  - intros w s coins m st outs C [H1 H2 H3 H4 H5 H6 H7] HX.
    destruct (dated_call _ _ (mk_mcall (member_oracle_of Out A w (w_council w)) e s coins m) _ _ H3 (N.le_refl _) HX) as (D1 & Q).
    split; try assumption. rewrite <- H4. unfold weight_then. cbn [w_member w_council set_councillors].
    destruct ty; [reflexivity|]. apply Q. apply seconds_le. exact H1.
  - intros w w1 [H1 H2 H3 H4 H5 H6 H7] E1 E2 E3 E4. split; unfold weight_then in *; rewrite ?E1, ?E2, ?E3, ?E4; assumption.
Qed.

Lemma settled_later ty id ends pl V T a b w : a <= b -> settled ty id ends pl V T a w -> settled ty id ends pl V T b w.
Proof.
  intros L [H1 H2 H3 H4 H5 H6 H7]. split; try assumption; [lia| |]; (eapply dated_later; [apply seconds_le; exact L|assumption]).
Qed.
End End.

(** while nothing has happened in the second of [t], the weights at [t] are those of now *)
Lemma dated_now d st t : dated d st -> d < ts_seconds t -> query_total_weight (members_of st) (AtTime t) = total_now st.
Proof.
  intros (e & i & st0 & cs & H1 & H2 & H3 & H4 & H5 & ->) L.
  rewrite (total_at_time e i st0 cs t H1 H2 H3), (proj2 (N.ltb_lt _ _)) by lia. f_equal. f_equal.
  clear - H5 L. induction cs as [|c cs IH]; [reflexivity|]. cbn [filter]. rewrite (proj2 (N.ltb_lt _ _)) by (pose proof (H5 c (or_introl eq_refl)); lia).
  f_equal. apply IH. intros x Hx. apply H5. right. exact Hx.
Qed.

Lemma last_from_all (P : N -> Prop) ts : forall now, Forall (fun t => P (e_time (tx_env t))) ts -> ts <> [] -> P (last_from now ts).
Proof.
  induction ts as [|t ts IH]; intros now F N; [destruct (N eq_refl)|]. change (last_from now (t :: ts)) with (last_from (e_time (tx_env t)) ts).
  destruct ts as [|u ts]; [exact (Forall_inv F)|]. apply IH; [exact (Forall_inv_tail F)|discriminate].
Qed.

Lemma timely_0 now ts : timely now ts -> timely 0 ts.
Proof. destruct ts as [|t ts]; [auto|]. intros (_ & T). split; [lia|exact T]. Qed.

Lemma run_app X (Out : outside X) A w a b : world_run Out A w (a ++ b) = world_run Out A (world_run Out A w a) b.
Proof. apply fold_left_app. Qed.

(** the first part of a calm history is one *)
Lemma prefix_core X (Out : outside X) A birth w0 before later : new_dao A w0 -> timely birth (before ++ later) ->
  lasting (world_run Out A w0 (before ++ later)) -> calm A (world_run Out A w0 (before ++ later)) ->
  let w := world_run Out A w0 before in
  core A (last_from 0 before) w /\ votes_current w (last_from 0 before) /\ size w < M64 /\ size (world_run Out A w later) < M64 /\ calm A (world_run Out A w later).
Proof.
  intros N T L C. rewrite run_app in *. assert (HA := nd_addrs _ _ N). destruct L as (_ & L2). change (size (world_run Out A (world_run Out A w0 before) later) < M64) in L2.
  pose proof (run_size Out A later (world_run Out A w0 before)) as S1. cbn zeta.
  assert (SW : size (world_run Out A w0 before) < M64) by lia.
  destruct (run_ahead Out A HA before w0 (new_wired _ _ N) SW) as (HW & _).
  destruct (run_ahead Out A HA later _ HW L2) as (_ & AH & _).
  destruct (timely_app _ _ _ T) as (T1 & _). apply timely_0 in T1.
  destruct (run_core Out A HA before 0 w0 (new_core _ _ N) (new_votes _ _ N) T1 SW (calm_back _ _ _ AH C)) as (K & V & _).
  auto.
Qed.

Lemma closing_some X (Out : outside X) A w0 before ty id ends : new_dao A w0 -> closing (world_run Out A w0 before) ty id ends -> before <> [].
Proof.
  intros N (p & pl & Hp & _) ->. destruct (new_records _ _ N) as (_ & E). change (world_run Out A w0 []) with w0 in Hp. rewrite E in Hp. discriminate.
Qed.

(** the votes and all terms stay as they are from the end on; the status is what it was or the outcome of the vote *)
Lemma settled_run X (Out : outside X) A birth w0 before later ty id ends pl :
  new_dao A w0 -> created_by birth (w_member w0) -> created_by birth (w_council w0) -> timely birth (before ++ later) ->
  lasting (world_run Out A w0 (before ++ later)) -> calm A (world_run Out A w0 (before ++ later)) ->
  let w := world_run Out A w0 before in
  closing w ty id ends -> oget (g_polls (w_gov w)) id = Some pl -> all_before ends before -> all_after ends later ->
  exists now, settled ty id ends pl (fun u => get_vote (w_gov w) u id) (weight_then w ty ends) now (world_run Out A w0 (before ++ later)).
Proof.
  intros N B1 B2 T L C w CL Hpl HB HL. assert (HA := nd_addrs _ _ N).
  destruct (prefix_core _ _ _ _ _ _ _ N T L C) as (K & V & SW & SL & CC). fold w in K, V, SW, SL, CC.
  destruct (timely_app _ _ _ T) as (T1 & T2).
  assert (NE : before <> []) by (eapply closing_some; eassumption).
  assert (LB : forall a, last_from a before < ends) by (intros a; apply (last_from_all (fun t => t < ends)); assumption).
  assert (D : dated (ts_seconds (last_from birth before)) (w_member w) /\ dated (ts_seconds (last_from birth before)) (w_council w)).
  { apply (induct_run Out A HA (fun now w => dated (ts_seconds now) (w_member w) /\ dated (ts_seconds now) (w_council w)) before birth w0).
    - intros now e _. apply dated_preserved.
    - intros a b v Hab (D1 & D2). split; (eapply dated_later; [apply seconds_le; exact Hab|assumption]).
    - exact T1.
    - exact (new_wired _ _ N).
    - exact SW.
    - split; apply created_dated; assumption. }
  assert (T3 : timely ends later).
  { destruct later as [|t later]; [exact I|]. destruct T2 as (T2 & T2'). split; [exact (Forall_inv HL)|exact T2']. }
  destruct CL as (p & pl' & Hp & Hty & Hpl' & Hs). assert (pl' = pl) by congruence. subst pl'.
  assert (HE : p_ends_at pl = ends).
  { destruct (c_ginv _ _ _ K) as (Hq & _). destruct (Hq _ _ Hpl) as (_ & _ & H3 & _). symmetry. exact (H3 _ Hs). }
  exists (last_from ends later). rewrite run_app. fold w.
  apply (induct_calm_run Out A HA (settled ty id ends pl (fun u => get_vote (w_gov w) u id) (weight_then w ty ends)) later ends w); try assumption.
  - intros now e _. apply settled_calmly; [exact HA|exact HE].
  - intros a b v Hab. apply settled_later. exact Hab.
  - eapply later_core; [|exact K]. apply N.lt_le_incl, LB.
  - eapply later_votes; [|exact V]. apply N.lt_le_incl, LB.
  - destruct D as (D1 & D2). split.
    + lia.
    + eapply dated_later; [apply seconds_le|exact D1]. apply N.lt_le_incl, LB.
    + eapply dated_later; [apply seconds_le|exact D2]. apply N.lt_le_incl, LB.
    + reflexivity.
    + reflexivity.
    + eauto.
    + exists (InProgress ends). split; [|left; reflexivity]. rewrite Hpl. f_equal. destruct pl. cbn in Hs. subst. reflexivity.
Qed.

(** * The results *)

Lemma votes_final X (Out : outside X) A birth w0 before later ty id ends pl :
  new_dao A w0 -> created_by birth (w_member w0) -> created_by birth (w_council w0) -> timely birth (before ++ later) ->
  lasting (world_run Out A w0 (before ++ later)) -> calm A (world_run Out A w0 (before ++ later)) ->
  let w := world_run Out A w0 before in let w' := world_run Out A w0 (before ++ later) in
  closing w ty id ends -> oget (g_polls (w_gov w)) id = Some pl -> all_before ends before -> all_after ends later ->
  (forall u, get_vote (w_gov w') u id = get_vote (w_gov w) u id) /\
  (exists pl', oget (g_polls (w_gov w')) id = Some pl' /\ status_only pl pl') /\
  weight_then w' ty ends = weight_then w ty ends /\
  (ty = General -> forall u v, get_vote (w_gov w') u id = Some v -> v_amount v = weight_of (w_member w) u).
Proof.
  intros N B1 B2 T L C w w' CL Hpl HB HL.
  destruct (settled_run _ Out A birth w0 before later ty id ends pl N B1 B2 T L C CL Hpl HB HL) as (now & [H1 H2 H3 H4 H5 H6 (s & H7 & _)]).
  fold w' in H4, H5, H7. split; [exact H5|]. split; [exists (with_status pl s); split; [exact H7|exists s; reflexivity]|]. split; [exact H4|].
  intros -> u v Hv. rewrite H5 in Hv. fold w in Hv.
  destruct (prefix_core _ _ _ _ _ _ _ N T L C) as (K & V & _). fold w in V.
  apply (V id u v); [|exact Hv]. destruct CL as (p & pl' & Q1 & Q2 & Q3 & Q4). exists p, pl', ends. repeat (split; [assumption|]).
  apply (last_from_all (fun t => t < ends)); [exact HB|]. eapply closing_some; [exact N|]. exists p, pl'. eauto.
Qed.

Lemma sum_fits g id total : share_fits (turnout g id) total -> lsum v_amount (recorded_votes g id) < M128 /\ lsum v_amount (recorded_votes g id) * DEC / total < M128.
Proof. intros H. exact H. Qed.

Lemma ended_ruled X (Out : outside X) A birth w0 before later ty id ends pl pl' :
  new_dao A w0 -> created_by birth (w_member w0) -> created_by birth (w_council w0) -> timely birth (before ++ later) ->
  lasting (world_run Out A w0 (before ++ later)) -> calm A (world_run Out A w0 (before ++ later)) ->
  let w := world_run Out A w0 before in let w' := world_run Out A w0 (before ++ later) in
  closing w ty id ends -> oget (g_polls (w_gov w)) id = Some pl -> all_before ends before -> all_after ends later ->
  share_fits (turnout (w_gov w) id) (weight_then w ty ends) ->
  oget (g_polls (w_gov w')) id = Some pl' -> p_status pl' <> InProgress ends ->
  ruled (w_gov w) id pl (weight_then w ty ends) (p_status pl').
Proof.
  intros N B1 B2 T L C w w' CL Hpl HB HL HF Hpl' Hs.
  destruct (settled_run _ Out A birth w0 before later ty id ends pl N B1 B2 T L C CL Hpl HB HL) as (now & [H1 H2 H3 H4 H5 H6 (s & H7 & H8)]).
  fold w' in H7. rewrite Hpl' in H7. injection H7 as ->. cbn [with_status p_status] in *. destruct H8 as [E|E]; subst s; [destruct (Hs eq_refl)|].
  destruct (prefix_core _ _ _ _ _ _ _ N T L C) as (K & _). fold w in K.
  destruct (sum_fits _ _ _ HF) as (F1 & F2). destruct (inv_sum4 (w_gov w) id pl (c_ginv _ _ _ K) Hpl F1) as (Q1 & Q2 & Q3).
  unfold ruled. rewrite <- !Q2. fold w. apply final_status_verdict; [exact Q1|rewrite Q3; exact F1|rewrite Q3; exact F2].
Qed.

(** whatever happens after the end, and whenever the proposal is executed: there is one outcome *)
Lemma one_outcome X (Out : outside X) A birth w0 before later1 later2 ty id ends pl1 pl2 :
  new_dao A w0 -> created_by birth (w_member w0) -> created_by birth (w_council w0) ->
  timely birth (before ++ later1) -> lasting (world_run Out A w0 (before ++ later1)) -> calm A (world_run Out A w0 (before ++ later1)) ->
  timely birth (before ++ later2) -> lasting (world_run Out A w0 (before ++ later2)) -> calm A (world_run Out A w0 (before ++ later2)) ->
  closing (world_run Out A w0 before) ty id ends -> all_before ends before -> all_after ends later1 -> all_after ends later2 ->
  oget (g_polls (w_gov (world_run Out A w0 (before ++ later1)))) id = Some pl1 -> p_status pl1 <> InProgress ends ->
  oget (g_polls (w_gov (world_run Out A w0 (before ++ later2)))) id = Some pl2 -> p_status pl2 <> InProgress ends ->
  pl1 = pl2.
Proof.
  intros N B1 B2 T1 L1 C1 T2 L2 C2 CL HB HL1 HL2 P1 S1 P2 S2. assert (CL' := CL). destruct CL' as (p & pl & _ & _ & Hpl & _).
  destruct (settled_run _ Out A birth w0 before later1 ty id ends pl N B1 B2 T1 L1 C1 CL Hpl HB HL1) as (n1 & [_ _ _ _ _ _ (s & H7 & H8)]).
  destruct (settled_run _ Out A birth w0 before later2 ty id ends pl N B1 B2 T2 L2 C2 CL Hpl HB HL2) as (n2 & [_ _ _ _ _ _ (t & H7' & H8')]).
  rewrite P1 in H7. rewrite P2 in H7'. injection H7 as ->. injection H7' as ->. cbn [with_status p_status] in S1, S2.
  destruct H8 as [E|E]; subst s; [destruct (S1 eq_refl)|]. destruct H8' as [E|E]; subst t; [destruct (S2 eq_refl)|]. reflexivity.
Qed.

(** if nothing happens in the very second of the end, the weight that counts is the whole weight at the end, and there are not more votes than that *)
Lemma whole_weight X (Out : outside X) A birth w0 before ty id ends :
  new_dao A w0 -> created_by birth (w_member w0) -> created_by birth (w_council w0) -> timely birth before ->
  lasting (world_run Out A w0 before) -> calm A (world_run Out A w0 before) ->
  let w := world_run Out A w0 before in
  closing w ty id ends -> seconds_before ends before ->
  weight_then w ty ends = weight_now w ty /\
  (ty = General -> turnout (w_gov w) id <= weight_then w ty ends /\ share_fits (turnout (w_gov w) id) (weight_then w ty ends)).
Proof.
  intros N B1 B2 T L C w CL HB. assert (HA := nd_addrs _ _ N). assert (NE : before <> []) by (eapply closing_some; eassumption).
  assert (SW : size w < M64) by apply L.
  assert (LB : forall a, ts_seconds (last_from a before) < ts_seconds ends) by (intros a; apply (last_from_all (fun t => ts_seconds t < ts_seconds ends)); assumption).
  assert (D : dated (ts_seconds (last_from birth before)) (w_member w) /\ dated (ts_seconds (last_from birth before)) (w_council w)).
  { apply (induct_run Out A HA (fun now w => dated (ts_seconds now) (w_member w) /\ dated (ts_seconds now) (w_council w)) before birth w0).
    - intros now e _. apply dated_preserved.
    - intros a b v Hab (D1 & D2). split; (eapply dated_later; [apply seconds_le; exact Hab|assumption]).
    - exact T.
    - exact (new_wired _ _ N).
    - exact SW.
    - split; apply created_dated; assumption. }
  assert (EW : weight_then w ty ends = weight_now w ty).
  { destruct D as (D1 & D2). unfold weight_then, weight_now. destruct ty; eapply dated_now; eauto. }
  split; [exact EW|]. intros ->. rewrite EW. unfold weight_now.
  assert (LT : last_time before < ends).
  { specialize (LB 0). change (last_time before) with (last_from 0 before). destruct (N.lt_ge_cases (last_from 0 before) ends) as [Q|Q]; [exact Q|].
    apply seconds_le in Q. lia. }
  destruct CL as (p & pl & Hp & Hty & Hpl & Hs).
  destruct (votes_below_total X Out A w0 before (last_time before) id pl N (timely_0 _ _ T) L C (N.le_refl _)) as (Q1 & _); [|exact Hpl|].
  { exists p, pl, ends. auto. }
  fold w in Q1. unfold turnout. split; [exact Q1|].
  destruct (run_facts X Out A w0 before N (timely_0 _ _ T) L C) as (K & _). destruct (c_small _ _ _ K) as (_ & HT). fold w in HT.
  change (total_weight (members_of (w_member w))) with (total_now (w_member w)) in HT.
  split; [change (2 ^ 128) with M128; lia|]. exact (turnout_fits _ _ Q1).
Qed.
