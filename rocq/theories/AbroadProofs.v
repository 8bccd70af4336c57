(** What a DAO says to other chains: induction over everything delivered. *)
From Verif Require Import Base OMap OMapLemmas Assets FundsModel MemberModel MemberSpec Msgs ControllerModel TreasuryModel EnterpriseModel
  OutpostsModel OutpostsSpec OutpostsFacts WorldModel WorldSpec WorldProofs WorldRun LedgerProofs OrderSpec AbroadSpec.

Section P.
Context {X : Type}.
Variable Out : outside X.
Variable A : addrs.
Hypothesis HA : NoDup (dao_addrs A).
Local Notation world := (world X).
Local Notation go := (go Out A).
Local Notation handle := (handle Out A).
Local Notation on_reply := (on_reply Out A).
Local Notation op := (a_outposts A).
Local Notation log := (list (addr * cosmos_msg)).
Local Notation ans := (answered Out A).

(** every call is answered at once, and nothing is sent otherwise *)
Inductive tidy (o : outposts) : log -> Prop :=
| td_nil : tidy o []
| td_other s m l : s <> op -> (forall wm coins, m <> WasmExecute op wm coins) -> tidy o l -> tidy o ((s, m) :: l)
| td_call s om coins ms l : s <> op -> ans o l s om ms -> tidy o l -> tidy o (map (pair op) ms ++ (s, to_outposts A om coins) :: l).

(** nothing recorded is lost *)
Definition more_records (o o' : outposts) : Prop :=
  (forall c p, oget (op_proxies o) c = Some p -> oget (op_proxies o') c = Some p) /\
  (forall c t, oget (op_treasuries o) c = Some t -> oget (op_treasuries o') c = Some t).
Lemma more_refl o : more_records o o. Proof. split; auto. Qed.

Lemma ans_more o o' l s om ms : more_records o o' -> ans o l s om ms -> ans o' l s om ms.
Proof.
  intros (H1 & H2) H. destruct H.
  - eapply an_remote; eauto.
  - eapply an_proxy; eauto.
  - eapply an_treasury; eauto.
  - eapply an_next; eauto.
  - eapply an_done; eauto.
Qed.
Lemma tidy_more o o' l : more_records o o' -> tidy o l -> tidy o' l.
Proof.
  intros HM H. induction H as [|s m l N1 N2 _ IH|s om coins ms l N1 N2 _ IH]; [constructor|apply td_other; assumption|].
  apply td_call; [exact N1|eapply ans_more; eassumption|exact IH].
Qed.

(** what is pending was ordered, what is recorded was reported *)
Definition pending (o : outposts) (l : log) : Prop :=
  forall id cb, oget (op_callbacks o) id = Some cb ->
  exists d, deployment_in A l d /\ cb_spec cb = dt_spec d /\ cb_proxy cb = dt_global_proxy d /\ (cb_type cb = CbProxy d \/ exists x, cb_type cb = CbTreasury x).
Definition recorded (o : outposts) (l : log) : Prop :=
  (forall c p, oget (op_proxies o) c = Some p -> reported Out A l c p) /\ (forall c t, oget (op_treasuries o) c = Some t -> reported Out A l c t).

Lemma deployment_more l l1 d : deployment_in A l d -> deployment_in A (l1 ++ l) d.
Proof. intros (coins & H). exists coins. apply in_or_app. auto. Qed.
Lemma reported_more l l1 c p : reported Out A l c p -> reported Out A (l1 ++ l) c p.
Proof.
  intros (s & id & coins & b & d & (later & ->) & H). exists s, id, coins, b, d. split; [|exact H]. exists (l1 ++ later). rewrite <- app_assoc. reflexivity.
Qed.
Lemma pending_more o l l1 : pending o l -> pending o (l1 ++ l).
Proof. intros H id cb E. destruct (H id cb E) as (d & H1 & H2). exists d. split; [apply deployment_more; exact H1|exact H2]. Qed.
Lemma recorded_more o l l1 : recorded o l -> recorded o (l1 ++ l).
Proof. intros (H1 & H2). split; intros; apply reported_more; auto. Qed.

Record good (w : world) : Prop := mk_good {
  go_wired : en_wired A (w_enterprise w);
  go_of : op_enterprise (w_outposts w) = a_enterprise A;
  go_tidy : tidy (w_outposts w) (w_log w);
  go_pending : pending (w_outposts w) (w_log w);
  go_recorded : recorded (w_outposts w) (w_log w)
}.

Lemma components_known (w : world) c : en_wired A (w_enterprise w) -> op_enterprise (w_outposts w) = a_enterprise A ->
  oo_components (op_oracle_of Out A w) = Ok c -> c_controller c = a_controller A.
Proof.
  intros (_ & att & HC) HO H. cbn [op_oracle_of oo_components] in H. unfold components_by, enterprise_at in H. rewrite HO, N.eqb_refl in H. cbn [bind] in H.
  unfold query_component_contracts in H. rewrite HC in H. injection H as <-. reflexivity.
Qed.

(** one call *)
Lemma own_call (w : world) e s om coins o' subs : good w -> s <> op -> outposts_execute (op_oracle_of Out A w) e (w_outposts w) s om = Ok (o', subs) ->
  let l := (s, to_outposts A om coins) :: w_log w in
  Forall (fun y => sm_reply y = ReplyNever /\ forall to wm cs, sm_msg y <> WasmExecute to wm cs) subs /\
  op_enterprise o' = a_enterprise A /\ tidy o' (map (pair op) (map sm_msg subs) ++ l) /\ pending o' l /\ recorded o' l.
Proof.
  intros [GW GO GT GP GR] Hs H l. set (q := op_oracle_of Out A w) in *.
  assert (Ctl : sent_by_controller q s -> s = a_controller A).
  { intros (c & Hc & ->). eapply components_known; eassumption. }
  pose proof (pending_more _ _ [(s, to_outposts A om coins)] GP) as GP'. pose proof (recorded_more _ _ [(s, to_outposts A om coins)] GR) as GR'.
  cbn [app] in GP', GR'. fold l in GP', GR'.
  destruct om as [d|tm x|id a].
  - apply deploy_iff in H. destruct H as (Hc & HN & cb & m & order & -> & (_ & ->) & -> & H). apply Ctl in Hc. subst s.
    split; [constructor; [|constructor]; split; [reflexivity|discriminate]|]. split; [exact GO|].
    assert (HD : deployment_in A l d) by (exists coins; left; reflexivity).
    split; [|split].
    + cbn [map sm_msg]. refine (td_call _ _ _ coins [_] _ Hs _ (tidy_more _ _ _ _ GT)); [|split; auto].
      destruct (oget (op_proxies (w_outposts w)) (x_chain (dt_spec d))) as [p|] eqn:EP.
      * destruct H as (-> & ->). eapply an_treasury; [reflexivity|exact EP|]. unfold treasury_order. eexists _, (next_id (op_last (w_outposts w))). reflexivity.
      * destruct H as (owner & H1 & -> & ->). apply an_proxy; [reflexivity|]. exists (e_time e + dflt 900000000000 (x_timeout (dt_spec d))), owner, (next_id (op_last (w_outposts w))). split; [exact H1|reflexivity].
    + intros i cb' E. cbn [op_callbacks] in E. rewrite oget_oset in E. destruct (next_id (op_last (w_outposts w)) =? i); [|exact (GP' _ _ E)].
      injection E as <-. exists d. split; [exact HD|]. destruct (oget (op_proxies (w_outposts w)) (x_chain (dt_spec d))).
      * destruct H as (_ & ->). cbn. eauto.
      * destruct H as (owner & _ & _ & ->). cbn. auto.
    + exact GR'.
  - apply remote_order_iff in H. destruct H as (Hc & -> & p & t & y & H1 & H2 & -> & (_ & ->)). apply Ctl in Hc. subst s.
    split; [constructor; [|constructor]; split; [reflexivity|discriminate]|]. split; [exact GO|]. split; [|split; assumption].
    cbn [map sm_msg]. refine (td_call _ _ _ coins [_] _ Hs _ GT). eapply an_remote; [reflexivity|eassumption..].
  - apply callback_iff in H. destruct H as (cb & made & wiring & H1 & H2 & H3 & -> & H4 & H).
    destruct (GP _ _ H1) as (d & D1 & D2 & D3 & D4). rewrite D2, D3 in H2.
    assert (HD : deployment_in A l d) by (apply (deployment_more _ [(s, to_outposts A (OpCallback id (Some made)) coins)]); exact D1).
    assert (HR : reported Out A l (x_chain (dt_spec d)) made).
    { exists s, id, coins, (w_log w), d. split; [exists []; reflexivity|]. split; [exact D1|]. split; [reflexivity|exact H2]. }
    destruct (cb_type cb) as [d'|x] eqn:ET.
    + destruct D4 as [D4|(x & D4)]; [injection D4 as ->|discriminate]. rewrite D2, D3 in *. destruct H as (HN & -> & m & -> & (_ & ->)).
      assert (HM : more_records (w_outposts w) (mk_outposts (op_enterprise (w_outposts w)) (oset (op_proxies (w_outposts w)) (x_chain (dt_spec d)) made) (op_treasuries (w_outposts w))
        (oset (odel (op_callbacks (w_outposts w)) id) (next_id (op_last (w_outposts w))) (mk_callback (dt_spec d) (dt_global_proxy d) (CbTreasury (dt_spec d)))) (next_id (op_last (w_outposts w))))).
      { split; [|auto]. intros c p E. cbn [op_proxies]. rewrite oget_oset. destruct (N.eqb_spec (x_chain (dt_spec d)) c) as [<-|]; [congruence|exact E]. }
      split; [constructor; [|constructor]; split; [reflexivity|discriminate]|]. split; [exact GO|]. split; [|split].
      * cbn [map sm_msg]. refine (td_call _ _ _ coins [_] _ Hs _ (tidy_more _ _ _ HM GT)). eapply an_next; [exact D1|exact H2| |].
        -- cbn [op_proxies]. apply oget_oset_eq.
        -- unfold treasury_order. eexists _, (next_id (op_last (w_outposts w))). reflexivity.
      * intros i cb' E. cbn [op_callbacks] in E. rewrite oget_oset in E. destruct (next_id (op_last (w_outposts w)) =? i).
        -- injection E as <-. exists d. cbn. eauto 8.
        -- rewrite oget_odel in E. destruct (id =? i); [discriminate|]. exact (GP' _ _ E).
      * destruct GR' as (R1 & R2). split; [|exact R2]. intros c p E. cbn [op_proxies] in E. rewrite oget_oset in E.
        destruct (N.eqb_spec (x_chain (dt_spec d)) c) as [<-|]; [injection E as <-; exact HR|exact (R1 _ _ E)].
    + rewrite D2 in *. destruct H as (HN & -> & ->).
      assert (HM : more_records (w_outposts w) (mk_outposts (op_enterprise (w_outposts w)) (op_proxies (w_outposts w)) (oset (op_treasuries (w_outposts w)) (x_chain (dt_spec d)) made)
        (odel (op_callbacks (w_outposts w)) id) (op_last (w_outposts w)))).
      { split; [auto|]. intros c p E. cbn [op_treasuries]. rewrite oget_oset. destruct (N.eqb_spec (x_chain (dt_spec d)) c) as [<-|]; [congruence|exact E]. }
      split; [constructor|]. split; [exact GO|]. split; [|split].
      * cbn [map]. refine (td_call _ s _ coins [] _ Hs _ (tidy_more _ _ _ HM GT)). eapply an_done; [exact D1|exact H2|]. cbn [op_treasuries]. apply oget_oset_eq.
      * intros i cb' E. cbn [op_callbacks] in E. rewrite oget_odel in E. destruct (id =? i); [discriminate|]. exact (GP' _ _ E).
      * destruct GR' as (R1 & R2). split; [exact R1|]. intros c p E. cbn [op_treasuries] in E. rewrite oget_oset in E.
        destruct (N.eqb_spec (x_chain (dt_spec d)) c) as [<-|]; [injection E as <-; exact HR|exact (R2 _ _ E)].
Qed.

(** everything delivered *)
Lemma quiet_op (w w1 : world) : good w -> en_wired A (w_enterprise w1) -> w_outposts w1 = w_outposts w -> w_log w1 = w_log w -> good w1.
Proof. intros [GW GO GT GP GR] HW EO EL. constructor; rewrite ?EO, ?EL; assumption. Qed.
Lemma noted_op (w w1 : world) s m : good w -> s <> op -> (forall wm coins, m <> WasmExecute op wm coins) -> en_wired A (w_enterprise w1) ->
  w_outposts w1 = w_outposts w -> w_log w1 = (s, m) :: w_log w -> good w1.
Proof.
  intros [GW GO GT GP GR] N1 N2 HW EO EL. constructor; rewrite ?EO, ?EL; [assumption..| | |].
  - apply td_other; assumption.
  - apply (pending_more _ _ [(s, m)]). assumption.
  - apply (recorded_more _ _ [(s, m)]). assumption.
Qed.

Lemma handle_op n (w : world) e s to m coins w1 subs d : handle n w e s to m coins = Ok (w1, subs, d) -> en_wired A (w_enterprise w) ->
  en_wired A (w_enterprise w1) /\ ((to <> op /\ w_outposts w1 = w_outposts w) \/
    (to = op /\ exists om o', m = ToOutposts om /\ outposts_execute (op_oracle_of Out A w) e (w_outposts w) s om = Ok (o', subs) /\ w1 = set_outposts w o')).
Proof.
  intros H HW. split.
  { pose proof (handle_cases Out A _ _ _ _ _ _ _ _ _ _ H) as [(_ & cm & s' & _ & _ & -> & _)|[(_ & gm & g & _ & _ & -> & _)|[(_ & mm & s' & outs & _ & _ & -> & _)|(_ & _ & _ & Q)]]];
      [exact HW..|apply Q; exact HW]. }
  pose proof (outposts_apart A HA) as (N1 & N2 & N3).
  assert (N4 : op <> a_council A /\ op <> a_funds A /\ op <> a_treasury A /\ op <> a_enterprise A).
  { pose proof HA as Q. unfold dao_addrs in Q. repeat match goal with Q : NoDup (_ :: _) |- _ => inversion Q; clear Q; subst end. cbn [In] in *. intuition congruence. }
  destruct N4 as (N4 & N5 & N6 & N7).
  unfold WorldModel.handle in H.
  destruct (N.eqb_spec to (a_controller A)) as [->|_]; [left; split; [congruence|]; destruct m; try discriminate; pb H; injection H as <- _ _; reflexivity|].
  destruct (N.eqb_spec to (a_governance A)) as [->|_]; [left; split; [congruence|]; destruct m; try discriminate; pb H; injection H as <- _ _; reflexivity|].
  destruct (N.eqb_spec to (a_membership A)) as [->|_]; [left; split; [congruence|]; destruct m; try discriminate; pb H; injection H as <- _ _; reflexivity|].
  destruct (N.eqb_spec to (a_council A)) as [->|_]; [left; split; [congruence|]; destruct m; try discriminate; pb H; injection H as <- _ _; reflexivity|].
  destruct (N.eqb_spec to (a_funds A)) as [->|_]; [left; split; [congruence|]; destruct m; try discriminate; pb H; injection H as <- _ _; reflexivity|].
  destruct (N.eqb_spec to (a_treasury A)) as [->|_]; [left; split; [congruence|]; destruct m; try discriminate; pb H; injection H as <- _ _; reflexivity|].
  destruct (N.eqb_spec to (a_enterprise A)) as [->|_]; [left; split; [congruence|]; destruct m; try discriminate; pb H; injection H as <- _ _; reflexivity|].
  destruct (N.eqb_spec to op) as [->|NE].
  - right. split; [reflexivity|]. destruct m; try discriminate. apply bind_ok in H. destruct H as ((o' & l) & Hx & H). injection H as <- <- _. eauto 6.
  - left. split; [exact NE|]. pb H. injection H as <- _ _. reflexivity.
Qed.
Lemma reply_op (w : world) e self id r w1 more : on_reply w e self id r = Ok (w1, more) -> en_wired A (w_enterprise w) ->
  en_wired A (w_enterprise w1) /\ w_outposts w1 = w_outposts w.
Proof.
  intros H HW. split.
  { pose proof (reply_cases Out A _ _ _ _ _ _ _ H) as [(_ & s' & _ & ->)|(_ & Q)]; [exact HW|apply Q; exact HW]. }
  unfold WorldModel.on_reply in H. destruct (self =? a_controller A); [pb H; injection H as <- _; reflexivity|].
  destruct (self =? a_enterprise A); [pb H; injection H as <- _; reflexivity|].
  destruct (self =? a_treasury A); [pb H; injection H as <- _; reflexivity|].
  destruct (is_dao A self); [discriminate|]. pb H. injection H as <- _. reflexivity.
Qed.
Lemma other_op (w : world) e s m w1 d : WorldModel.other_msg Out A w e s m = Ok (w1, d) -> w_outposts w1 = w_outposts w.
Proof.
  intros H. destruct m; cbn [WorldModel.other_msg] in H; try (destruct (is_dao A contract)); pb H; try (injection H as <- _; reflexivity).
  apply bind_ok in H. destruct H as (w2 & E & H). injection H as <- _. unfold migrate_to in E.
  destruct (plain_migration _ _ _ _ _); [injection E as <-; reflexivity|].
  destruct (_ && _); [|injection E as <-; reflexivity].
  apply bind_ok in E. destruct E as (subs & _ & E). destruct (forallb _ _); injection E as <-; reflexivity.
Qed.

(** the messages of the outposts contract, none of which is a call *)
Lemma own_subs n : forall (w : world) e subs w' d, go n w e (JSubs op subs) = Ok (w', d) -> en_wired A (w_enterprise w) ->
  Forall (fun y => sm_reply y = ReplyNever /\ forall to wm cs, sm_msg y <> WasmExecute to wm cs) subs -> (length subs <= 1)%nat ->
  en_wired A (w_enterprise w') /\ w_outposts w' = w_outposts w /\ w_log w' = map (pair op) (map sm_msg subs) ++ w_log w.
Proof.
  intros w e [|y [|z l]] w' d H HW F L; [| |cbn in L; lia].
  - apply go_nil in H. destruct H as (-> & _). auto.
  - pose proof (Forall_inv F) as (F1 & F2). apply go_cons in H. destruct H as (n1 & -> & H).
    destruct H as [(w1 & d1 & H1 & [(_ & H2)|(id & w2 & more & w3 & d3 & E & _)])|(id & w2 & more & w3 & d3 & _ & E & _)]; [|destruct E; congruence|congruence].
    apply go_nil in H2. destruct H2 as (-> & _). destruct n1 as [|n1]; [discriminate|].
    apply go_msg in H1. destruct H1 as [(to & wm & cs & x & w2 & subs & d' & E & _)|(_ & Ho)]; [destruct (F2 _ _ _ E)|].
    pose proof (other_quiet _ _ _ _ _ _ _ _ Ho) as Q. pose proof (other_op _ _ _ _ _ _ Ho) as EO.
    split; [apply Q; exact HW|]. split; [exact EO|]. cbn [map app]. apply Q.
Qed.
Lemma few_subs q e o s om o' subs : outposts_execute q e o s om = Ok (o', subs) -> (length subs <= 1)%nat.
Proof.
  intros H. destruct om as [d|tm x|id a].
  - apply deploy_iff in H. destruct H as (_ & _ & cb & m & order & -> & _). cbn. lia.
  - apply remote_order_iff in H. destruct H as (_ & _ & p & t & y & _ & _ & -> & _). cbn. lia.
  - apply callback_iff in H. destruct H as (cb & made & wiring & _ & _ & _ & _ & _ & H). destruct (cb_type cb).
    + destruct H as (_ & _ & m & -> & _). cbn. lia.
    + destruct H as (_ & _ & ->). cbn. lia.
Qed.

Definition other_job (j : job) : Prop := match j with JMsg s _ => s <> op | JSubs self _ => self <> op end.

Lemma go_good n : forall (w : world) e j w' d, go n w e j = Ok (w', d) -> good w -> other_job j -> good w'.
Proof.
  induction n as [|n IH]; intros w e j w' d H G HJ; [destruct j; discriminate|].
  destruct j as [s m|self [|x rest]]; cbn [other_job] in HJ.
  - apply go_msg in H. destruct H as [(to & wm & coins & x & w1 & subs & d' & -> & _ & Hh & Hg)|(NW & Ho)].
    + pose proof (handle_log _ _ _ _ _ _ _ _ _ _ _ _ Hh) as HL. pose proof (handle_op _ _ _ _ _ _ _ _ _ _ Hh (go_wired _ G)) as (W1 & [(NE & EO)|(-> & om & o' & -> & Hx & ->)]).
      * apply (IH _ _ _ _ _ Hg); [|exact NE]. apply (noted_op w _ s (WasmExecute to wm coins)); [exact G|exact HJ| |exact W1|exact EO|exact HL].
        intros wm' coins' E. injection E as E _ _. contradiction.
      * destruct (own_call w e s om coins o' subs G HJ Hx) as (S1 & S2 & S3 & S4 & S5).
        destruct (own_subs _ _ _ _ _ _ Hg W1 S1 (few_subs _ _ _ _ _ _ _ Hx)) as (W2 & EO & EL).
        cbn [set_outposts w_outposts] in EO.
        assert (EL' : w_log w' = map (pair op) (map sm_msg subs) ++ (s, to_outposts A om coins) :: w_log w) by exact EL.
        constructor; rewrite ?EO, ?EL'; [exact W2|exact S2|exact S3|apply pending_more; exact S4|apply recorded_more; exact S5].
    + pose proof (other_quiet _ _ _ _ _ _ _ _ Ho) as Q. pose proof (other_op _ _ _ _ _ _ Ho) as EO.
      apply (noted_op w _ s m); [exact G|exact HJ|intros wm coins; apply NW|apply Q; exact (go_wired _ G)|exact EO|apply Q].
  - apply go_nil in H. destruct H as [-> _]. exact G.
  - apply go_cons in H. destruct H as (n' & E & H). injection E as <-.
    assert (HR : forall wa id r wb more wc dc wd dd, good wa -> on_reply wa e self id r = Ok (wb, more) ->
      go n wb e (JSubs self more) = Ok (wc, dc) -> go n wc e (JSubs self rest) = Ok (wd, dd) -> good wd).
    { intros wa id r wb more wc dc wd dd Ga Hr Hg1 Hg2. pose proof (reply_log _ _ _ _ _ _ _ _ _ Hr) as RL.
      pose proof (reply_op _ _ _ _ _ _ _ Hr (go_wired _ Ga)) as (Wb & EO).
      refine (IH _ _ _ _ _ Hg2 (IH _ _ _ _ _ Hg1 _ HJ) HJ). exact (quiet_op _ _ Ga Wb EO RL). }
    destruct H as [(w1 & d1 & H1 & [(_ & H2)|(id & w2 & more & w3 & d3 & _ & H2 & H3 & H4)])|(id & w2 & more & w3 & d3 & _ & _ & H2 & H3 & H4)].
    + exact (IH _ _ _ _ _ H2 (IH _ _ _ _ _ H1 G HJ) HJ).
    + exact (HR _ _ _ _ _ _ _ _ _ (IH _ _ _ _ _ H1 G HJ) H2 H3 H4).
    + exact (HR _ _ _ _ _ _ _ _ _ G H2 H3 H4).
Qed.

Lemma run_good ts : forall w : world, good w -> good (world_run Out A w ts).
Proof.
  induction ts as [|t ts IH]; intros w HI; [exact HI|].
  change (world_run Out A w (t :: ts)) with (world_run Out A (world_step Out A w t) ts). apply IH.
  destruct (WorldRun.step_cases Out A w t) as [E|(d & Hd & H)]; [rewrite E in *; exact HI|].
  apply (go_good _ _ _ _ _ _ H HI). cbn [other_job]. intros E. rewrite E in Hd. revert Hd. unfold is_dao, dao_addrs. cbn. rewrite N.eqb_refl, ?Bool.orb_true_r. discriminate.
Qed.

(** reading a tidy log *)
Lemma sent_split l log s m before : sent_after (l ++ log) s m before -> (exists l1 l2, l = l1 ++ (s, m) :: l2 /\ before = l2 ++ log) \/ sent_after log s m before.
Proof.
  revert log. induction l as [|x l IH]; intros log (later & E); [right; exists later; exact E|]. destruct later as [|y later].
  - injection E as -> <-. left. exists [], l. auto.
  - injection E as -> E. destruct (IH log (ex_intro _ later E)) as [(l1 & l2 & -> & ->)|H]; [left; exists (y :: l1), l2; auto|right; exact H].
Qed.
Lemma few_answers o l s om ms : ans o l s om ms -> (length ms <= 1)%nat.
Proof. intros H. destruct H; cbn; lia. Qed.

Lemma tidy_sent o log m before : tidy o log -> sent_after log op m before ->
  exists s om coins l, before = (s, to_outposts A om coins) :: l /\ ans o l s om [m].
Proof.
  intros H. revert m before. induction H as [|s m l N1 N2 _ IH|s om coins ms l N1 N2 _ IH]; intros m' before Q.
  - destruct Q as (later & E). destruct later; discriminate.
  - apply (sent_split [(s, m)]) in Q. destruct Q as [(l1 & l2 & E & _)|Q]; [|exact (IH _ _ Q)].
    destruct l1 as [|? [|]]; try discriminate. injection E as E _ _. congruence.
  - apply sent_split in Q. destruct Q as [(l1 & l2 & E & ->)|Q].
    + pose proof (few_answers _ _ _ _ _ N2) as L. destruct ms as [|y [|z ms]]; [destruct l1; discriminate| |cbn in L; lia].
      destruct l1 as [|? [|]]; try discriminate. injection E as -> <-. exists s, om, coins, l. auto.
    + apply (sent_split [(s, to_outposts A om coins)]) in Q. destruct Q as [(l1 & l2 & E & _)|Q]; [|exact (IH _ _ Q)].
      destruct l1 as [|? [|]]; try discriminate. injection E as E _ _. congruence.
Qed.
Lemma tidy_called o log s wm coins l : tidy o log -> sent_after log s (WasmExecute op wm coins) l ->
  exists om ms later, wm = ToOutposts om /\ ans o l s om ms /\ log = later ++ map (pair op) ms ++ (s, to_outposts A om coins) :: l.
Proof.
  intros H. revert s wm coins l. induction H as [|s m l N1 N2 _ IH|s om coins ms l N1 N2 _ IH]; intros s' wm coins' l' Q.
  - destruct Q as (later & E). destruct later; discriminate.
  - apply (sent_split [(s, m)]) in Q. destruct Q as [(l1 & l2 & E & _)|Q].
    + destruct l1 as [|? [|]]; try discriminate. injection E as _ E _. destruct (N2 _ _ E).
    + destruct (IH _ _ _ _ Q) as (om & ms & later & -> & H1 & ->). exists om, ms, ((s, m) :: later). auto.
  - apply sent_split in Q. destruct Q as [(l1 & l2 & E & _)|Q].
    + exfalso. pose proof (in_or_app l1 ((s', WasmExecute op wm coins') :: l2) (s', WasmExecute op wm coins') (or_intror (or_introl eq_refl))) as Q. rewrite <- E in Q.
      apply in_map_iff in Q. destruct Q as (y & E1 & Hy). injection E1 as _ ->. destruct N2; cbn in Hy; try contradiction; destruct Hy as [Hy|[]]; try discriminate Hy.
      all: match goal with H : proxy_order _ _ _ _ |- _ => destruct H as (? & ? & ? & _ & ->) | H : treasury_order _ _ _ _ |- _ => destruct H as (? & ? & ->) end; discriminate Hy.
    + apply (sent_split [(s, to_outposts A om coins)]) in Q. destruct Q as [(l1 & l2 & E & ->)|Q].
      * destruct l1 as [|? [|]]; try discriminate. injection E as <- <- <- <-. exists om, ms, []. auto.
      * destruct (IH _ _ _ _ Q) as (om' & ms' & later & -> & H1 & ->). exists om', ms', (map (pair op) ms ++ (s, to_outposts A om coins) :: later).
        split; [reflexivity|]. split; [exact H1|]. rewrite <- app_assoc. reflexivity.
Qed.
End P.
