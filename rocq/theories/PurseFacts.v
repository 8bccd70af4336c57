(** Facts about what the treasury of a DAO sends. *)
From Coq Require Import Permutation.
From Verif Require Import Base OMap OMapLemmas Assets PollModel PollSpec FundsModel MemberModel Msgs ControllerModel ControllerSpec TreasuryModel
  EnterpriseModel OutpostsModel WorldModel WorldSpec WorldProofs WorldRun WorldFacts FacadeSpec LedgerSpec LedgerProofs PurseSpec PurseProofs.

Lemma treasury_exact (X : Type) (Out : outside X) A w0 ts w :
  new_dao A w0 -> new_treasury A w0 -> w = world_run Out A w0 ts -> lasting w -> treasury_kept A w ->
  Permutation (sent_by (a_treasury A) w) (ordered A w).
Proof.
  intros HN HT -> (_ & HL) HK. destruct (run_obeyed Out A (nd_addrs _ _ HN) ts w0 (new_sound A w0 HN HT) HL HK) as (B & _).
  unfold bal in B. assert (E1 : sent_by (a_treasury A) w0 = []) by (unfold sent_by; rewrite (nd_log _ _ HN); reflexivity).
  assert (E2 : ordered A w0 = []) by (unfold ordered, runs; rewrite (nd_log _ _ HN); reflexivity).
  rewrite E1, E2, !app_nil_r in B. exact B.
Qed.

Lemma treasury_runs (X : Type) (Out : outside X) A w0 ts w :
  new_dao A w0 -> new_treasury A w0 -> w = world_run Out A w0 ts -> lasting w -> treasury_kept A w ->
  forall id, In id (runs A w) -> exists p, oget (ct_proposals (w_ctl w)) id = Some p.
Proof.
  intros HN HT -> (_ & HL) HK. destruct (run_obeyed Out A (nd_addrs _ _ HN) ts w0 (new_sound A w0 HN HT) HL HK) as (_ & _ & P & _). exact P.
Qed.

Lemma lsum_flat {B C} (f : C -> N) (g : B -> list C) l : lsum f (flat_map g l) = lsum (fun b => lsum f (g b)) l.
Proof.
  induction l as [|b l IH]; [reflexivity|]. cbn [flat_map]. rewrite lsum_cons, <- IH. generalize (flat_map g l). intros r. generalize (g b). intros q.
  induction q as [|c q IHq]; cbn [app]; [unfold lsum; reflexivity|]. rewrite !lsum_cons, IHq. lia.
Qed.

Lemma treasury_measure (X : Type) (Out : outside X) A w0 ts w (amount : cosmos_msg -> N) :
  new_dao A w0 -> new_treasury A w0 -> w = world_run Out A w0 ts -> lasting w -> treasury_kept A w ->
  lsum amount (sent_by (a_treasury A) w) = lsum (fun id => lsum amount (orders_of A w id)) (runs A w).
Proof.
  intros HN HT HW HL HK. rewrite (lsum_perm amount _ _ (treasury_exact X Out A w0 ts w HN HT HW HL HK)). unfold ordered. apply lsum_flat.
Qed.

Lemma runs_count (X : Type) A (w : world X) id : N.of_nat (length (filter (fun i => i =? id) (runs A w))) = action_runs A w id.
Proof.
  unfold runs, action_runs. f_equal. induction (w_log w) as [|[s m] l IH]; [reflexivity|]. cbn [flat_map snd filter].
  destruct m; try exact IH. destruct m; try exact IH. destruct m; try exact IH.
  destruct (contract =? a_controller A); cbn [andb app filter]; [|exact IH]. destruct (_ =? id); cbn [length]; [f_equal|]; exact IH.
Qed.

Lemma once_nodup (l : list N) : (forall x : N, (length (filter (fun i => N.eqb i x) l) <= 1)%nat) -> NoDup l.
Proof.
  induction l as [|a l IH]; intros H; [constructor|]. constructor.
  - intros Hin. specialize (H a). cbn [filter] in H. rewrite N.eqb_refl in H. cbn [length] in H.
    assert (Q : In a (filter (fun i => i =? a) l)) by (apply filter_In; split; [exact Hin|apply N.eqb_refl]). destruct (filter (fun i => i =? a) l); [destruct Q|cbn in H; lia].
  - apply IH. intros x. specialize (H x). cbn [filter] in H. destruct (a =? x); cbn [length] in H; lia.
Qed.

Lemma treasury_voted (X : Type) (Out : outside X) A w0 ts w :
  new_dao A w0 -> new_treasury A w0 -> w = world_run Out A w0 ts -> lasting w -> treasury_kept A w -> timely 0 ts -> calm A w ->
  NoDup (runs A w) /\
  (forall id, In id (runs A w) -> exists p pl b o n, oget (ct_proposals (w_ctl w)) id = Some p /\ pi_executed_at p = Some b /\
     oget (g_polls (w_gov w)) id = Some pl /\ p_status pl = Passed o n) /\
  forall m, In m (sent_by (a_treasury A) w) -> exists id p pl b o n, In id (runs A w) /\ oget (ct_proposals (w_ctl w)) id = Some p /\
    In m (orders A p) /\ pi_executed_at p = Some b /\ oget (g_polls (w_gov w)) id = Some pl /\ p_status pl = Passed o n.
Proof.
  intros HN HT HW HL HK HTi HC. subst w.
  assert (V : forall id, In id (runs A (world_run Out A w0 ts)) -> exists p pl b o n, oget (ct_proposals (w_ctl (world_run Out A w0 ts))) id = Some p /\ pi_executed_at p = Some b /\
     oget (g_polls (w_gov (world_run Out A w0 ts))) id = Some pl /\ p_status pl = Passed o n).
  { intros id Hid. destruct (actions_of_passed X Out A w0 ts id HN HTi HL HC) as (L & P). rewrite <- runs_count in L, P.
    assert (Q : In id (filter (fun i => i =? id) (runs A (world_run Out A w0 ts)))) by (apply filter_In; split; [exact Hid|apply N.eqb_refl]).
    destruct P as (_ & P); [|exact P]. destruct (filter (fun i => i =? id) (runs A (world_run Out A w0 ts))); [destruct Q|]. cbn [length] in *. lia. }
  split; [|split; [exact V|]].
  - apply once_nodup. intros x. destruct (actions_of_passed X Out A w0 ts x HN HTi HL HC) as (L & _). rewrite <- runs_count in L. lia.
  - intros m Hm. apply (Permutation_in m (treasury_exact X Out A w0 ts _ HN HT eq_refl HL HK)) in Hm. unfold ordered in Hm.
    apply in_flat_map in Hm. destruct Hm as (id & Hid & Hm). destruct (V _ Hid) as (p & pl & b & o & n & Hp & Hb & Hpl & Hs).
    unfold orders_of in Hm. rewrite Hp in Hm. exists id, p, pl, b, o, n. auto 8.
Qed.

(** * The balance *)

Section B.
Context {X : Type}.
Variable Out : outside X.
Variable A : addrs.
Variable u : addr.
Variable attached : list coin -> N.
Variable taken : cosmos_msg -> N.
Variable bal : X -> N.
Hypothesis HK : keeps_for Out u attached taken bal.

Definition lost (w : world X) : N := lsum (price attached taken) (sent_by u w).
Definition holds (w w' : world X) : Prop := bal (w_ext w) + lost w <= bal (w_ext w') + lost w'.

Lemma lost_note (w : world X) s m : lost (note w s m) = (if s =? u then price attached taken m else 0) + lost w.
Proof. unfold lost, sent_by. cbn [w_log note flat_map fst snd]. destruct (s =? u); [|reflexivity]. cbn [app]. rewrite lsum_cons. reflexivity. Qed.
Lemma lost_log (w w1 : world X) : w_log w1 = w_log w -> lost w1 = lost w.
Proof. unfold lost, sent_by. intros ->. reflexivity. Qed.

Lemma go_holds n : forall w e j w' d, go Out A n w e j = Ok (w', d) -> holds w w'.
Proof.
  induction n as [|n IH]; intros w e j w' d H; [destruct j; discriminate|].
  destruct j as [s m|self [|x rest]].
  - apply go_msg in H. destruct H as [(to & wm & coins & x & w1 & subs & d' & -> & Hx & Hh & Hg)|(NE & Ho)].
    + apply IH in Hg. unfold holds in *. pose proof (kf_pay _ _ _ _ _ HK _ _ _ _ _ Hx) as HP.
      pose proof (lost_log _ _ (handle_log _ _ _ _ _ _ _ _ _ _ _ _ Hh)) as HL.
      change (lost (set_ext (note w s (WasmExecute to wm coins)) x)) with (lost (note w s (WasmExecute to wm coins))) in HL. rewrite lost_note in HL. cbn [price] in HL.
      apply handle_ext in Hh. destruct Hh as [(_ & E)|(_ & x' & Hx' & E)].
      * change (w_ext (set_ext (note w s (WasmExecute to wm coins)) x)) with x in E. rewrite E in Hg. destruct (s =? u); lia.
      * apply (kf_exec _ _ _ _ _ HK) in Hx'. change (w_ext (set_ext (note w s (WasmExecute to wm coins)) x)) with x in Hx'.
        assert (E' : w_ext w1 = x') by (rewrite E; reflexivity). rewrite E' in Hg. destruct (s =? u); lia.
    + unfold holds. pose proof (lost_note w s m) as LN. assert (EP : price attached taken m = taken m) by (destruct m; try reflexivity; destruct (NE _ _ _ eq_refl)). rewrite EP in LN.
      destruct (other_ext _ _ _ _ _ _ _ _ Ho) as [->|[->|(x & Hx & ->)]].
      * change (w_ext (note w s m)) with (w_ext w). destruct (s =? u); lia.
      * change (lost (set_upgraded (note w s m))) with (lost (note w s m)). change (w_ext (set_upgraded (note w s m))) with (w_ext w). destruct (s =? u); lia.
      * apply (kf_msg _ _ _ _ _ HK) in Hx. change (lost (set_ext (note w s m) x)) with (lost (note w s m)). change (w_ext (set_ext (note w s m) x)) with x.
        change (w_ext (note w s m)) with (w_ext w) in Hx. destruct (s =? u); lia.
  - apply go_nil in H. destruct H as [-> _]. unfold holds. lia.
  - apply go_cons in H. destruct H as (n' & E & H). injection E as <-.
    assert (HR : forall wa id r wb more wc dc, on_reply Out A wa e self id r = Ok (wb, more) -> go Out A n wb e (JSubs self more) = Ok (wc, dc) -> holds wa wc).
    { intros wa id r wb more wc dc Hr Hg. apply IH in Hg. unfold holds in *. pose proof (lost_log _ _ (reply_log _ _ _ _ _ _ _ _ _ Hr)) as HL.
      apply reply_ext in Hr. destruct Hr as [(_ & E)|(_ & x' & Hx' & E)]; [rewrite E in Hg; lia|]. apply (kf_reply _ _ _ _ _ HK) in Hx'.
      assert (E' : w_ext wb = x') by (rewrite E; reflexivity). rewrite E' in Hg. lia. }
    destruct H as [(w1 & d1 & H1 & [(_ & H2)|(id & w2 & more & w3 & d3 & _ & H2 & H3 & H4)])|(id & w2 & more & w3 & d3 & _ & _ & H2 & H3 & H4)].
    + apply IH in H1, H2. unfold holds in *. lia.
    + apply IH in H1, H4. pose proof (HR _ _ _ _ _ _ _ H2 H3). unfold holds in *. lia.
    + apply IH in H4. pose proof (HR _ _ _ _ _ _ _ H2 H3). unfold holds in *. lia.
Qed.

Lemma run_holds ts : forall w, holds w (world_run Out A w ts).
Proof.
  induction ts as [|t ts IH]; intros w; [unfold holds; cbn; lia|]. change (world_run Out A w (t :: ts)) with (world_run Out A (world_step Out A w t) ts).
  specialize (IH (world_step Out A w t)). destruct (WorldRun.step_cases Out A w t) as [E|(d & _ & H)]; [rewrite E in *; exact IH|].
  apply go_holds in H. unfold holds in *. lia.
Qed.
End B.

Lemma treasury_balance (X : Type) (Out : outside X) A w0 ts w attached taken bal :
  new_dao A w0 -> new_treasury A w0 -> w = world_run Out A w0 ts -> lasting w -> treasury_kept A w ->
  keeps_for Out (a_treasury A) attached taken bal ->
  bal (w_ext w0) <= bal (w_ext w) + lsum (fun id => lsum (price attached taken) (orders_of A w id)) (runs A w).
Proof.
  intros HN HT HW HL HK HH. rewrite <- (treasury_measure X Out A w0 ts w (price attached taken) HN HT HW HL HK).
  pose proof (run_holds Out A (a_treasury A) attached taken bal HH ts w0) as H. rewrite <- HW in H. unfold holds, lost in H.
  assert (E : sent_by (a_treasury A) w0 = []) by (unfold sent_by; rewrite (nd_log _ _ HN); reflexivity). rewrite E in H. change (lsum (price attached taken) []) with 0 in H. lia.
Qed.
