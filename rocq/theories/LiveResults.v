(** When proposals can be resolved: results for every history of a DAO. *)
From Verif Require Import Base OMap OMapLemmas Assets PollModel PollSpec PollProofs PollFacts FundsModel FundsSpec MemberModel MemberSpec MemberProofs Msgs
  ControllerModel ControllerSpec ControllerProofs ControllerFacts TreasuryModel EnterpriseModel OutpostsModel WorldModel WorldSpec WorldMember
  WorldProofs WorldRun WorldFacts WorldInduct LiveSpec LiveProofs LiveFacts LiveStuck.

Lemma run_early X (Out : outside X) A w0 ts : new_dao A w0 -> lasting (world_run Out A w0 ts) -> early_ok (world_run Out A w0 ts).
Proof.
  intros N (_ & L). assert (HA := nd_addrs _ _ N).
  assert (G : forall ts w, wired A w -> size (world_run Out A w ts) < M64 -> early_ok w -> early_ok (world_run Out A w ts)).
  { clear w0 ts N L. induction ts as [|t ts IH]; intros w HW HS H; [exact H|].
    change (world_run Out A w (t :: ts)) with (world_run Out A (world_step Out A w t) ts) in *.
    pose proof (run_size Out A ts (world_step Out A w t)) as S1.
    destruct (step_cases Out A w t) as [E|(d & Hd & G)]; [rewrite E in *; apply IH; assumption|].
    apply IH; [eapply (layer1 Out A HA _ _ _ _ _ _ G HW I); lia|exact HS|].
    eapply (induct_go Out A HA _ _ (early_preserved Out A (tx_env t))); [exact G|exact HW|exact I|lia|exact H]. }
  apply G; [apply new_wired; exact N|exact L|]. intros id p Hp. destruct (new_records _ _ N) as (_ & E). rewrite E, oget_empty in Hp. discriminate.
Qed.

Lemma run_wired X (Out : outside X) A w0 ts : new_dao A w0 -> lasting (world_run Out A w0 ts) -> wired A (world_run Out A w0 ts).
Proof. intros N (_ & L). eapply (run_ahead Out A (nd_addrs _ _ N) ts w0 (new_wired _ _ N)). exact L. Qed.

(** Every proposal has its poll; the time before which it cannot be executed early is not after the poll's end. *)
Lemma proposal_has_poll X (Out : outside X) A w0 ts id p :
  new_dao A w0 -> lasting (world_run Out A w0 ts) ->
  oget (ct_proposals (w_ctl (world_run Out A w0 ts))) id = Some p ->
  exists pl, oget (g_polls (w_gov (world_run Out A w0 ts))) id = Some pl /\ forall t, pi_earliest p = Some t -> t <= p_ends_at pl.
Proof. intros N L. exact (run_early X Out A w0 ts N L id p). Qed.

(** A request to resolve a proposal after the end of its vote, by anybody who is not restricted: exactly when, and how, it succeeds. *)
Lemma resolvable_exact X (Out : outside X) A w0 ts w e s id p pl w' :
  new_dao A w0 -> free_calls Out -> w = world_run Out A w0 ts -> lasting w ->
  oget (ct_proposals (w_ctl w)) id = Some p -> pi_executed_at p = None ->
  oget (g_polls (w_gov w)) id = Some pl -> p_ends_at pl <= e_time e ->
  restricted_by Out A w (a_enterprise A) s = Ok false ->
  forall total v, total = weight_then w (pi_type p) (p_ends_at pl) -> v = final_status pl total ->
  (exists gas d, go Out A gas w e (JMsg s (ask_resolution A id)) = Ok (w', d)) <->
  total <> 0 /\ concluded Out A e id (handed A p v) v (judged A w e s id p pl total v) w'.
Proof.
  intros N F -> L Hp He Hpl Hend Hr total v -> ->.
  apply (ask_exact Out A (nd_addrs _ _ N) F); try assumption.
  - apply run_wired; assumption.
  - intros t Ht. destruct (run_early X Out A w0 ts N L id p Hp) as (pl' & Hpl' & H). apply H in Ht. assert (pl' = pl) by congruence. subst. lia.
Qed.

(** So it can be resolved, if anybody had weight, running the actions takes finite gas and the deposit can be handed over. *)
Lemma resolvable_with_weight X (Out : outside X) A w0 ts w e s id p pl :
  new_dao A w0 -> free_calls Out -> w = world_run Out A w0 ts -> lasting w ->
  oget (ct_proposals (w_ctl w)) id = Some p -> pi_executed_at p = None ->
  oget (g_polls (w_gov w)) id = Some pl -> p_ends_at pl <= e_time e ->
  restricted_by Out A w (a_enterprise A) s = Ok false ->
  forall total v, total = weight_then w (pi_type p) (p_ends_at pl) -> v = final_status pl total -> total <> 0 ->
  (exists k, go Out A k (judged A w e s id p pl total v) e (JMsg (a_controller A) (run_order A id)) <> Err EGas) ->
  (forall w2, exists k w3, go Out A k w2 e (JSubs (a_controller A) (handed A p v)) = Ok (w3, None)) ->
  exists gas w' d, go Out A gas w e (JMsg s (ask_resolution A id)) = Ok (w', d) /\
    (N.of_nat (length (w_log w')) < 2 ^ 64 -> exists p', oget (ct_proposals (w_ctl w')) id = Some p' /\ pi_executed_at p' = Some e).
Proof.
  intros N F Ew L Hp He Hpl Hend Hr total v ET EV HT (k & Hk) HD.
  assert (HW : wired A w) by (subst w; apply run_wired; assumption).
  assert (C : exists w', concluded Out A e id (handed A p v) v (judged A w e s id p pl total v) w').
  { unfold concluded. destruct v as [t|o y|r] eqn:E.
    - rewrite EV in E. exfalso. exact (final_status_not_in_progress _ _ _ (eq_sym EV)).
    - destruct (go Out A k (judged A w e s id p pl total (Passed o y)) e (JMsg (a_controller A) (run_order A id))) as [[w2 d]|x] eqn:G.
      + destruct (HD w2) as (k1 & w3 & H1). exists w3, w2. split; [eauto|]. exists k. left. eauto.
      + destruct (HD (judged A w e s id p pl total (Passed o y))) as (k1 & w3 & H1). exists w3. eexists. split; [eauto|]. exists k. right.
        split; [reflexivity|]. exists x. split; [exact G|congruence].
    - destruct (HD (judged A w e s id p pl total (Rejected r))) as (k1 & w3 & H1). exists w3. eexists. split; [eauto|]. reflexivity. }
  destruct C as (w' & C).
  destruct (proj2 (resolvable_exact X Out A w0 ts w e s id p pl w' N F Ew L Hp He Hpl Hend Hr total v ET EV) (conj HT C)) as (gas & d & G).
  exists gas, w', d. split; [exact G|]. intros HS. change (size w' < M64) in HS.
  set (w1 := judged A w e s id p pl total v) in *.
  assert (W1 : wired A w1).
  { destruct HW as [H1 H2 H3 H4 H5]. split; try assumption.
    - intros i q Hq. cbn in Hq. rewrite oget_oset in Hq. cbn. destruct (N.eqb_spec id i) as [<-|]; [exact (H4 _ _ Hp)|exact (H4 _ _ Hq)].
    - unfold size in *. cbn [w1 judged w_gov g_count w_log length]. lia. }
  assert (Q : oget (ct_proposals (w_ctl w1)) id = Some (mk_info (pi_type p) (Some e) (pi_earliest p) (pi_deposit p) (pi_actions p))) by apply oget_oset_eq.
  assert (K : kept w1 w').
  { destruct C as (w2 & (k1 & G1) & C).
    assert (FI : fine (handed A p v)).
    { unfold fine, handed. destruct (pi_deposit p) as [dd|]; [|constructor].
      assert (FH : forall to a, Forall (fun x => sm_reply x = ReplyNever \/ sm_reply x = ReplyAlways 3) (handing to a)).
      { intros to a. destruct a; cbn [handing]; repeat constructor. apply Forall_forall. intros x Hx. apply in_map_iff in Hx. destruct Hx as (y & <- & _). left. reflexivity. }
      destruct (pi_type p), v; try apply FH; constructor. }
    assert (W2 : wired A w2 /\ kept w1 w2).
    { assert (S2 : size w2 < M64) by (pose proof (go_size _ _ _ _ _ _ _ _ G1); lia).
      destruct v as [t|o y|r]; try (subst w2; split; [exact W1|apply kept_refl]).
      destruct C as (k2 & [(d2 & G2)|(-> & _)]); [|split; [exact W1|apply kept_refl]].
      exact (layer1 Out A (nd_addrs _ _ N) _ _ _ _ _ _ G2 W1 I S2). }
    destruct W2 as (W2 & K2). eapply kept_trans; [exact K2|]. exact (proj2 (layer1 Out A (nd_addrs _ _ N) _ _ _ _ _ _ G1 W2 (fun _ => FI) HS)). }
  destruct K as (_ & _ & K). destruct (K _ _ Q) as (p' & Hp' & _ & E). exists p'. split; [exact Hp'|]. apply E. reflexivity.
Qed.

Lemma timely_app a : forall now b, timely now (a ++ b) -> timely now a /\ timely (last_from now a) b.
Proof.
  induction a as [|t a IH]; intros now b H; [split; [exact I|exact H]|]. cbn [app timely] in H. destruct H as (H1 & H2).
  destruct (IH _ _ H2) as (H3 & H4). split; [split; assumption|]. exact H4.
Qed.

(** And if nobody had weight, it is never resolved: whatever happens later, it stays as it is. *)
Lemma stuck_forever X (Out : outside X) A birth w0 ts later w id p pl :
  new_dao A w0 -> created_by birth (w_member w0) -> created_by birth (w_council w0) -> timely birth (ts ++ later) ->
  w = world_run Out A w0 ts -> lasting (world_run Out A w0 (ts ++ later)) ->
  oget (ct_proposals (w_ctl w)) id = Some p -> pi_executed_at p = None ->
  oget (g_polls (w_gov w)) id = Some pl -> Forall (fun t => p_ends_at pl <= e_time (tx_env t)) later ->
  weight_then w (pi_type p) (p_ends_at pl) = 0 ->
  exists p', oget (ct_proposals (w_ctl (world_run Out A w0 (ts ++ later)))) id = Some p' /\ pi_executed_at p' = None /\
    pi_type p' = pi_type p /\ pi_deposit p' = pi_deposit p /\ pi_actions p' = pi_actions p.
Proof.
  intros N B1 B2 T Ew L Hp He Hpl HF HT.
  destruct (timely_app _ _ _ T) as (T1 & T2).
  assert (HA := nd_addrs _ _ N). assert (R : world_run Out A w0 (ts ++ later) = world_run Out A w later).
  { subst w. unfold world_run. apply fold_left_app. }
  rewrite Ew in Hp. destruct (record_kept X Out A w0 ts later id p N L Hp) as (q & Hq & E1 & E2 & E3 & _). rewrite <- Ew in Hp.
  destruct L as (_ & L). change (size (world_run Out A w0 (ts ++ later)) < M64) in L. rewrite R in *.
  assert (S1 := run_size Out A later w). assert (SW : size (world_run Out A w0 ts) < M64) by (rewrite <- Ew; lia).
  destruct (run_ahead Out A HA ts w0 (new_wired _ _ N) SW) as (HW & _). rewrite <- Ew in HW.
  assert (D : dated (ts_seconds (last_from birth ts)) (w_member w) /\ dated (ts_seconds (last_from birth ts)) (w_council w)).
  { rewrite Ew. apply (induct_run Out A HA (fun now w => dated (ts_seconds now) (w_member w) /\ dated (ts_seconds now) (w_council w)) ts birth w0).
    - intros now e _. apply dated_preserved.
    - intros a b v Hab (D1 & D2). split; (eapply dated_later; [apply seconds_le; exact Hab|assumption]).
    - exact T1.
    - apply new_wired. exact N.
    - exact SW.
    - split; apply created_dated; assumption. }
  set (now := N.max (last_from birth ts) (p_ends_at pl)).
  assert (T3 : timely now later).
  { destruct later as [|t later]; [exact I|]. destruct T2 as (T2 & T2'). split; [|exact T2']. apply Forall_inv in HF. unfold now. lia. }
  assert (K : stuck id (pi_type p) (p_ends_at pl) (last_from now later) (world_run Out A w later)).
  { apply (induct_run Out A HA (stuck id (pi_type p) (p_ends_at pl)) later now w); try assumption.
    - intros a e _. apply stuck_preserved. exact HA.
    - intros a b v Hab. apply stuck_later. exact Hab.
    - destruct D as (D1 & D2). split.
      + exists p. auto.
      + exists pl. auto.
      + unfold now. lia.
      + eapply dated_later; [apply seconds_le|exact D1]. unfold now. lia.
      + eapply dated_later; [apply seconds_le|exact D2]. unfold now. lia.
      + exact HT. }
  destruct K as [(p' & Hp' & K1 & _) _ _ _ _ _]. assert (p' = q) by congruence. subst q. exists p'. auto.
Qed.

(** The total weights of a past moment do not change any more. *)
Lemma past_weights_fixed X (Out : outside X) A birth w0 ts later ty when :
  new_dao A w0 -> created_by birth (w_member w0) -> created_by birth (w_council w0) -> timely birth (ts ++ later) ->
  lasting (world_run Out A w0 (ts ++ later)) -> Forall (fun t => when <= e_time (tx_env t)) later ->
  weight_then (world_run Out A w0 (ts ++ later)) ty when = weight_then (world_run Out A w0 ts) ty when.
Proof.
  intros N B1 B2 T L HF. destruct (timely_app _ _ _ T) as (T1 & T2). assert (HA := nd_addrs _ _ N).
  assert (R : world_run Out A w0 (ts ++ later) = world_run Out A (world_run Out A w0 ts) later) by apply fold_left_app.
  destruct L as (_ & L). change (size (world_run Out A w0 (ts ++ later)) < M64) in L. rewrite R in *.
  assert (S1 := run_size Out A later (world_run Out A w0 ts)). assert (SW : size (world_run Out A w0 ts) < M64) by lia.
  destruct (run_ahead Out A HA ts w0 (new_wired _ _ N) SW) as (HW & _).
  assert (D : dated (ts_seconds (last_from birth ts)) (w_member (world_run Out A w0 ts)) /\ dated (ts_seconds (last_from birth ts)) (w_council (world_run Out A w0 ts))).
  { apply (induct_run Out A HA (fun now w => dated (ts_seconds now) (w_member w) /\ dated (ts_seconds now) (w_council w)) ts birth w0).
    - intros now e _. apply dated_preserved.
    - intros a b v Hab (D1 & D2). split; (eapply dated_later; [apply seconds_le; exact Hab|assumption]).
    - exact T1.
    - apply new_wired. exact N.
    - exact SW.
    - split; apply created_dated; assumption. }
  set (w := world_run Out A w0 ts) in *. set (now := N.max (last_from birth ts) when).
  assert (T3 : timely now later).
  { destruct later as [|t later]; [exact I|]. destruct T2 as (T2 & T2'). split; [|exact T2']. apply Forall_inv in HF. unfold now. lia. }
  set (P := fun now (v : world X) => when <= now /\ dated (ts_seconds now) (w_member v) /\ dated (ts_seconds now) (w_council v) /\ weight_then v ty when = weight_then w ty when).
  assert (K : P (last_from now later) (world_run Out A w later)).
  { apply (induct_run Out A HA P later now w); try assumption.
    - intros a e _. unfold P. split.
      + intros v s m x H. exact H.
      + intros v s coins m s' subs w1 subs1 W (H1 & H2 & H3 & H4) HS HX TT _.
        assert (HM : w_member w1 = w_member v /\ w_council w1 = w_council v).
        { destruct TT; match goal with H : stepped _ _ _ _ |- _ => destruct H as (_ & ? & ? & _) end; auto. }
        unfold weight_then in *. destruct HM as (-> & ->). auto.
      + intros v s m g d W H _ _. exact H.
      + intros v s coins m st outs W (H1 & H2 & H3 & H4) HX.
        destruct (dated_call _ _ (mk_mcall (member_oracle_of Out A v (w_member v)) e s coins m) _ _ H2 (N.le_refl _) HX) as (D1 & Q).
        split; [exact H1|]. split; [exact D1|]. split; [exact H3|]. rewrite <- H4. unfold weight_then. cbn [w_member w_council set_member].
        destruct ty; [|reflexivity]. apply Q. apply seconds_le. exact H1.
      + intros v s coins m st outs W (H1 & H2 & H3 & H4) HX.
        destruct (dated_call _ _ (mk_mcall (member_oracle_of Out A v (w_council v)) e s coins m) _ _ H3 (N.le_refl _) HX) as (D1 & Q).
        split; [exact H1|]. split; [exact H2|]. split; [exact D1|]. rewrite <- H4. unfold weight_then. cbn [w_member w_council set_councillors].
        destruct ty; [reflexivity|]. apply Q. apply seconds_le. exact H1.
      + intros v w1 (H1 & H2 & H3 & H4) _ _ E1 E2. unfold weight_then in *. rewrite E1, E2. auto.
    - intros a b v Hab (H1 & H2 & H3 & H4). split; [lia|]. split; [|split; [|exact H4]]; (eapply dated_later; [apply seconds_le; exact Hab|assumption]).
    - split; [unfold now; lia|]. destruct D as (D1 & D2). split; [|split; [|reflexivity]]; (eapply dated_later; [apply seconds_le|eassumption]); unfold now; lia. }
  exact (proj2 (proj2 (proj2 K))).
Qed.
