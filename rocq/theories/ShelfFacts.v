(** Decisions about the lists of the treasury take effect. *)
From Verif Require Import Base OMap OMapLemmas Assets PollModel PollSpec PollProofs PollFacts FundsModel FundsSpec MemberModel MemberSpec Msgs
  ControllerModel ControllerSpec ControllerProofs ControllerFacts TreasuryModel TreasurySpec TreasuryFacts EnterpriseModel OutpostsModel WorldModel WorldSpec WorldProofs WorldRun WorldFacts
  LiftProofs LiftFacts LiveSpec LiveProofs LiveResults EndSpec RipeSpec RipeFacts PurseSpec OrderSpec AccessProofs FacadeSpec FacadeProofs BallotSpec RecountSpec MajoritySpec MajorityFacts EnactProofs EnactFacts ShelfSpec.

Lemma kept_asset_iff x l : forall P Q : Prop, (P <-> Q) -> fold_left (kept_asset x) l P <-> fold_left (kept_asset x) l Q.
Proof. induction l as [|a l IH]; intros P Q H; [exact H|]. cbn [fold_left]. apply IH. destruct a; cbn [kept_asset]; try tauto; destruct target; tauto. Qed.
Lemma kept_nft_iff x l : forall P Q : Prop, (P <-> Q) -> fold_left (kept_nft x) l P <-> fold_left (kept_nft x) l Q.
Proof. induction l as [|a l IH]; intros P Q H; [exact H|]. cbn [fold_left]. apply IH. destruct a; cbn [kept_nft]; try tauto; destruct target; tauto. Qed.

Lemma relisted_one gas t a : about_lists a -> exists t', treasury_execute gas t (tr_admin t) (list_order a) = Ok (t', []) /\ relisted [a] t t'.
Proof.
  intros H. destruct a; try (exfalso; exact H); destruct target; try (exfalso; exact H); cbn [list_order].
  - destruct H as (H1 & H2). pose proof (proj2 (update_assets_accepted gas t (tr_admin t) add remove) (conj eq_refl (conj H1 H2))) as K.
    destruct (treasury_execute gas t (tr_admin t) (TrUpdateAssets add remove)) as [[t' ms]|] eqn:E; [|discriminate K].
    destruct (update_assets_ok _ _ _ _ _ _ _ E) as (_ & -> & L & N1 & N2 & N3). exists t'. split; [reflexivity|]. split; [exact L| |exact N2|exact N3].
    intros n. cbn. unfold nft_listed. rewrite N1. tauto.
  - destruct H as (H1 & H2).
    assert (K : is_ok (treasury_execute gas t (tr_admin t) (TrUpdateNfts add remove)) = true).
    { cbn [treasury_execute]. unfold tr_admin_only. rewrite N.eqb_refl. cbn [guard bind].
      assert (P1 : forall l u, ~ In 0 l -> exists u', fold_res add_nft u l = Ok u').
      { induction l as [|n l IH]; intros u HN; [eexists; reflexivity|]. cbn [fold_res]. unfold add_nft at 1, addr_validate.
        destruct (N.eqb_spec n 0) as [->|]; [destruct HN; left; reflexivity|]. cbn [guard bind negb]. apply IH. intros HH. apply HN. right. exact HH. }
      assert (P2 : forall l u, ~ In 0 l -> exists u', fold_res remove_nft u l = Ok u').
      { induction l as [|n l IH]; intros u HN; [eexists; reflexivity|]. cbn [fold_res]. unfold remove_nft at 1, addr_validate.
        destruct (N.eqb_spec n 0) as [->|]; [destruct HN; left; reflexivity|]. cbn [guard bind negb]. apply IH. intros HH. apply HN. right. exact HH. }
      destruct (P1 add t H1) as (t1 & E1). rewrite E1. cbn [bind]. destruct (P2 remove t1 H2) as (t2 & E2). rewrite E2. reflexivity. }
    destruct (treasury_execute gas t (tr_admin t) (TrUpdateNfts add remove)) as [[t' ms]|] eqn:E; [|discriminate K].
    destruct (update_nfts_ok _ _ _ _ _ _ _ E) as (_ & -> & L & N1 & N2 & N3 & N4 & N5). exists t'. split; [reflexivity|]. split; [|exact L|exact N4|exact N5].
    intros x. cbn. unfold TreasurySpec.listed. destruct x; rewrite ?N1, ?N2, ?N3; tauto.
Qed.

Lemma relisted_cons a l t t1 t2 : relisted [a] t t1 -> relisted l t1 t2 -> relisted (a :: l) t t2.
Proof.
  intros [A1 A2 A3 A4] [B1 B2 B3 B4]. split; try congruence.
  - intros x. rewrite B1. cbn [fold_left]. apply kept_asset_iff. exact (A1 x).
  - intros n. rewrite B2. cbn [fold_left]. apply kept_nft_iff. exact (A2 n).
Qed.

Section Shelf.
Context {X : Type}.
Variable Out : outside X.
Variable A : addrs.
Hypothesis HA : NoDup (dao_addrs A).
Hypothesis HF : free_calls Out.
Notation world := (world X).

Lemma lists_run o att l : co_components o = Ok (wiring_of A att) -> Forall about_lists l -> forall s subs,
  fold_res (run_action_acc o) (s, subs) l = Ok (s, subs ++ map plain (map (fun a => treasury_call A None (list_order a)) l)).
Proof.
  intros HC H. induction H as [|a l Ha Hl IH]; intros s subs.
  - cbn. rewrite app_nil_r. reflexivity.
  - cbn [fold_res]. destruct a; try (exfalso; exact Ha); destruct target; try (exfalso; exact Ha);
    unfold run_action_acc at 1; cbn [fst snd run_action]; unfold to_treasury; rewrite HC; cbn [bind]; rewrite IH; cbn [map list_order treasury_call];
    rewrite <- app_assoc; reflexivity.
Qed.

Definition stocked (w : world) (l : list proposal_action) (t' : treasury) : world :=
  mk_world (w_enterprise w) (w_ctl w) (w_gov w) (w_member w) (w_council w) (w_funds w) t' (w_outposts w)
    (rev (map (fun a => (a_controller A, treasury_call A None (list_order a))) l) ++ w_log w) (w_upgraded w) (w_ext w).

Lemma tell_treasury n (w : world) e a : tr_admin (w_treasury w) = a_controller A -> about_lists a -> exists t',
  go Out A (S (S n)) w e (JMsg (a_controller A) (treasury_call A None (list_order a))) = Ok (stocked w [a] t', None) /\ relisted [a] (w_treasury w) t'.
Proof.
  intros HT Ha.
  destruct (apart A HA) as (N1 & N2 & N3 & N4 & N5 & N6 & N7 & N8 & N9 & N10 & N11 & N12 & N13 & N14 & N15 & N16 & N17 & N18 & N19 & N20 & N21 & N22 & N23 & N24 & N25 & N26 & N27 & N28).
  destruct (relisted_one (S n) (w_treasury w) a Ha) as (t' & E & R). exists t'. split; [|exact R]. rewrite HT in E.
  unfold treasury_call. cbn [go]. cbn [note w_ext]. rewrite HF. cbn [bind]. unfold handle.
  repeat match goal with |- context [a_treasury A =? ?b] =>
    lazymatch b with a_treasury A => fail | _ => rewrite (proj2 (N.eqb_neq (a_treasury A) b)) by (apply not_eq_sym; assumption) || rewrite (proj2 (N.eqb_neq (a_treasury A) b)) by assumption end end.
  rewrite N.eqb_refl. cbn [set_ext note w_treasury]. rewrite E. reflexivity.
Qed.

Lemma tell_lists l : Forall about_lists l -> forall (w : world) e, tr_admin (w_treasury w) = a_controller A -> exists k t',
  go Out A k w e (JSubs (a_controller A) (map plain (map (fun a => treasury_call A None (list_order a)) l))) = Ok (stocked w l t', None) /\ relisted l (w_treasury w) t'.
Proof.
  induction 1 as [|a l Ha Hl IH]; intros w e HT.
  - exists 1%nat, (w_treasury w). split; [cbn; destruct w; reflexivity|]. split; cbn; tauto.
  - assert (R0 : exists t1, forall n, go Out A (S (S n)) w e (JMsg (a_controller A) (treasury_call A None (list_order a))) = Ok (stocked w [a] t1, None) /\ relisted [a] (w_treasury w) t1).
    { destruct (tell_treasury 0 w e a HT Ha) as (t1 & H1 & R1). exists t1. intros n. split; [|exact R1].
      apply (go_more Out A 2 (S (S n))) in H1; [exact H1|discriminate|lia]. }
    destruct R0 as (t1 & R0). destruct (R0 0%nat) as (_ & R1).
    destruct (IH (stocked w [a] t1) e) as (k & t2 & Hk & R2). { cbn. rewrite (rl_admin _ _ _ R1). exact HT. }
    exists (S (S (S k))), t2. split; [|exact (relisted_cons _ _ _ _ _ R1 R2)].
    cbn [map]. eapply go_next; [exact (proj1 (R0 k))|]. apply (go_more Out A k (S (S k))) in Hk; [|discriminate|lia].
    rewrite Hk. f_equal. f_equal. unfold stocked. cbn. rewrite <- app_assoc. reflexivity.
Qed.

Lemma lists_take_effect (w : world) e id p : en_wired A (w_enterprise w) -> ct_enterprise (w_ctl w) = a_enterprise A -> tr_admin (w_treasury w) = a_controller A ->
  oget (ct_proposals (w_ctl w)) id = Some p -> Forall about_lists (pi_actions p) ->
  exists k t', go Out A k w e (JMsg (a_controller A) (run_order A id)) = Ok (restocked A w id (pi_actions p) t', None) /\ relisted (pi_actions p) (w_treasury w) t'.
Proof.
  intros F1 F2 F3 Hp HH. set (w1 := note w (a_controller A) (run_order A id)).
  destruct (tell_lists (pi_actions p) HH w1 e F3) as (k & t' & Hk & R). exists (S k), t'. split; [|exact R].
  unfold run_order at 1. cbn [go]. change (note w (a_controller A) (WasmExecute (a_controller A) (ToController (CExecuteActions id)) [])) with w1.
  rewrite HF. cbn [bind]. assert (EX : set_ext w1 (w_ext w1) = w1) by reflexivity. rewrite EX.
  unfold handle. rewrite N.eqb_refl. cbn [ctl_execute]. unfold execute_actions. rewrite N.eqb_refl. cbn [guard bind].
  change (w_ctl w1) with (w_ctl w). rewrite Hp. cbn [ok_or bind].
  destruct (components_wired A w1 F1) as (att & HC).
  rewrite (lists_run (ctl_oracle_of Out A w1) att (pi_actions p)); [|cbn; rewrite F2; exact HC|exact HH].
  cbn [bind app]. assert (E2 : set_ctl w1 (w_ctl w) = w1) by reflexivity. rewrite E2, Hk. reflexivity.
Qed.

Lemma passed_as e id dep ab y (w1 w2 w' : world) k0 : go Out A k0 w1 e (JMsg (a_controller A) (run_order A id)) = Ok (w2, None) ->
  concluded Out A e id dep (Passed ab y) w1 w' <-> exists k, go Out A k w2 e (JSubs (a_controller A) dep) = Ok (w', None).
Proof.
  intros H0. unfold concluded. split.
  - intros (w3 & (k & Hk) & k1 & [(d & H1)|(-> & x & H1 & Hx)]).
    + assert (E : @Ok (world * option N) (w2, None) = Ok (w3, d)).
      { rewrite <- (go_more Out A _ (k0 + k1)%nat _ _ _ _ H0 ltac:(discriminate) ltac:(lia)).
        exact (go_more Out A _ (k0 + k1)%nat _ _ _ _ H1 ltac:(discriminate) ltac:(lia)). }
      injection E as -> _. eauto.
    + assert (E : @Ok (world * option N) (w2, None) = @Err (world * option N) x).
      { rewrite <- (go_more Out A _ (k0 + k1)%nat _ _ _ _ H0 ltac:(discriminate) ltac:(lia)).
        apply (go_more Out A _ (k0 + k1)%nat _ _ _ _ H1); [congruence|lia]. }
      discriminate E.
  - intros (k & Hk). exists w2. split; [eauto|]. exists k0. left. eauto.
Qed.
End Shelf.

(** * For every history *)

Lemma lists_ready X (Out : outside X) A w0 ts w : new_dao A w0 -> tr_admin (w_treasury w0) = a_controller A -> w = world_run Out A w0 ts -> lasting w -> treasury_kept A w ->
  en_wired A (w_enterprise w) /\ ct_enterprise (w_ctl w) = a_enterprise A /\ tr_admin (w_treasury w) = a_controller A.
Proof.
  intros N T EW L K. pose proof (LiveResults.run_wired X Out A w0 ts N) as W. rewrite <- EW in W. specialize (W L).
  split; [exact (wi_en _ _ W)|]. split; [exact (wi_of _ _ W)|]. rewrite (admin_stays X Out A w0 ts w N EW K). exact T.
Qed.

Lemma lists_decision X (Out : outside X) A w0 ts w e s id p pl total ab y :
  new_dao A w0 -> tr_admin (w_treasury w0) = a_controller A -> free_calls Out -> w = world_run Out A w0 ts -> lasting w -> treasury_kept A w ->
  ripe Out A w e s id p pl total -> final_status pl total = Passed ab y -> Forall about_lists (pi_actions p) ->
  exists t', relisted (pi_actions p) (w_treasury w) t' /\
  let now := restocked A (judged A w e s id p pl total (Passed ab y)) id (pi_actions p) t' in
  forall w', (exists gas d, go Out A gas w e (JMsg s (ask_resolution A id)) = Ok (w', d)) <->
  exists k, go Out A k now e (JSubs (a_controller A) (handed A p (Passed ab y))) = Ok (w', None).
Proof.
  intros N T F EW L K RP HV HH. destruct (lists_ready X Out A w0 ts w N T EW L K) as (W1 & W2 & W3).
  set (j := judged A w e s id p pl total (Passed ab y)).
  assert (Hp' : exists p', oget (ct_proposals (w_ctl j)) id = Some p' /\ pi_actions p' = pi_actions p).
  { eexists. unfold j. cbn. rewrite oget_oset, N.eqb_refl. split; reflexivity. }
  destruct Hp' as (p' & Hp' & Ea).
  destruct (lists_take_effect Out A (nd_addrs _ _ N) F j e id p' W1 W2 W3 Hp') as (k & t' & Hk & R); [rewrite Ea; exact HH|]. rewrite Ea in Hk, R.
  exists t'. split; [exact R|]. intros now w'. rewrite (executable_exact X Out A w0 ts w e s id w' N F EW L).
  pose proof (passed_as Out A e id (handed A p (Passed ab y)) ab y j _ w' k Hk) as PC. fold now in PC.
  split.
  - intros (p2 & pl2 & t2 & v & RP2 & Hv & _ & HC).
    assert (p2 = p) by (pose proof (rp_proposal _ _ _ _ _ _ _ _ _ RP); pose proof (rp_proposal _ _ _ _ _ _ _ _ _ RP2); congruence). subst p2.
    assert (pl2 = pl) by (pose proof (rp_poll _ _ _ _ _ _ _ _ _ RP); pose proof (rp_poll _ _ _ _ _ _ _ _ _ RP2); congruence). subst pl2.
    assert (t2 = total) by (rewrite (rp_total _ _ _ _ _ _ _ _ _ RP), (rp_total _ _ _ _ _ _ _ _ _ RP2); reflexivity). subst t2.
    rewrite HV in Hv. subst v. apply PC. exact HC.
  - intros H. exists p, pl, total, (Passed ab y). split; [exact RP|]. split; [symmetry; exact HV|]. split; [intros _; split; discriminate|]. apply PC. exact H.
Qed.

Lemma lists_effect X (Out : outside X) A w0 ts w e s id p pl total ab y :
  new_dao A w0 -> tr_admin (w_treasury w0) = a_controller A -> free_calls Out -> w = world_run Out A w0 ts -> lasting w -> treasury_kept A w ->
  ripe Out A w e s id p pl total -> final_status pl total = Passed ab y -> Forall about_lists (pi_actions p) -> pi_deposit p = None ->
  exists t', relisted (pi_actions p) (w_treasury w) t' /\
  let now := restocked A (judged A w e s id p pl total (Passed ab y)) id (pi_actions p) t' in
  (exists gas d, go Out A gas w e (JMsg s (ask_resolution A id)) = Ok (now, d)) /\
  (forall gas w' d, go Out A gas w e (JMsg s (ask_resolution A id)) = Ok (w', d) -> w' = now).
Proof.
  intros N T F EW L K RP HV HH HD. destruct (lists_decision X Out A w0 ts w e s id p pl total ab y N T F EW L K RP HV HH) as (t' & R & DE).
  exists t'. split; [exact R|]. intros now. cbn zeta in DE. rewrite (handed_none A p _ HD) in DE. fold now in DE. split.
  - apply DE. exists 1%nat. reflexivity.
  - intros gas w' d H. destruct (proj1 (DE w') ltac:(eauto)) as (k & Hk). apply go_nil in Hk. exact (proj1 Hk).
Qed.

Lemma lists_majority X (Out : outside X) A birth w0 before later id ends p pl pl' us e s :
  new_dao A w0 -> tr_admin (w_treasury w0) = a_controller A -> free_calls Out -> created_by birth (w_member w0) -> created_by birth (w_council w0) -> timely birth (before ++ later) ->
  let w := world_run Out A w0 before in let w' := world_run Out A w0 (before ++ later) in
  lasting w -> lasting w' -> calm A w' -> treasury_kept A w' ->
  closing w General id ends -> oget (g_polls (w_gov w)) id = Some pl -> seconds_before ends before -> all_after ends later ->
  stand_for A w id [Yes] us -> winning w pl us ->
  oget (ct_proposals (w_ctl w')) id = Some p -> pi_executed_at p = None -> oget (g_polls (w_gov w')) id = Some pl' ->
  ends <= e_time e -> restricted_by Out A w' (a_enterprise A) s = Ok false ->
  Forall about_lists (pi_actions p) ->
  let v := Passed 0 (support A w id Yes) in
  exists t', relisted (pi_actions p) (w_treasury w') t' /\
  let now := restocked A (judged A w' e s id p pl' (weight_now w General) v) id (pi_actions p) t' in
  forall w'', (exists gas d, go Out A gas w' e (JMsg s (ask_resolution A id)) = Ok (w'', d)) <->
   exists k, go Out A k now e (JSubs (a_controller A) (handed A p v)) = Ok (w'', None).
Proof.
  intros HN T HFC B1 B2 HT w w' HLw HL HC HK HCl Hpl HB HAf HU HW Hp Hx Hpl' He Hr HH v.
  destruct (lists_ready X Out A w0 (before ++ later) w' HN T eq_refl HL HK) as (W1 & W2 & W3).
  set (j := judged A w' e s id p pl' (weight_now w General) v).
  assert (Hp' : exists p', oget (ct_proposals (w_ctl j)) id = Some p' /\ pi_actions p' = pi_actions p).
  { eexists. unfold j. cbn. rewrite oget_oset, N.eqb_refl. split; reflexivity. }
  destruct Hp' as (p' & Hp' & Ea).
  destruct (lists_take_effect Out A (nd_addrs _ _ HN) HFC j e id p' W1 W2 W3 Hp') as (k & t' & Hk & R); [rewrite Ea; exact HH|]. rewrite Ea in Hk, R.
  exists t'. split; [exact R|]. intros now w''.
  pose proof (majority_executes X Out A birth w0 before later id ends p pl pl' us e s w'' HN HFC B1 B2 HT HLw HL HC HCl Hpl HB HAf HU HW Hp Hx Hpl' He Hr) as ME.
  cbn zeta in ME. fold w w' v in ME. fold j in ME.
  exact (iff_trans ME (passed_as Out A e id (handed A p v) 0 (support A w id Yes) j _ w'' k Hk)).
Qed.
