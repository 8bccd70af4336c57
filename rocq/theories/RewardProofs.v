(** Reward weights follow voting weights. *)
From Verif Require Import Base OMap OMapLemmas Assets PollModel PollSpec PollProofs PollFacts FundsModel FundsSpec MemberModel MemberSpec
  MemberProofs MemberFacts Msgs ControllerModel ControllerSpec ControllerProofs ControllerFacts TreasuryModel EnterpriseModel
  EnterpriseSpec EnterpriseFacts OutpostsModel WorldModel WorldSpec WorldMember WorldProofs WorldRun LiftFacts RewardSpec.

(** * The funds distributor *)

Lemma weight_one_writes f t u x f' t' : update_weight_one (f, t) (u, x) = Ok (f', t') ->
  f_weights f' = oset (f_weights f) u x /\ f_admin f' = f_admin f.
Proof.
  unfold update_weight_one. intros H. apply bind_ok in H. destruct H as (u' & Hu & H).
  unfold addr_validate in Hu. destruct (u =? 0); [discriminate|]. injection Hu as <-.
  apply bind_ok in H. destruct H as (f1 & Hf & H).
  assert (E : f_weights f1 = f_weights f /\ f_admin f1 = f_admin f).
  { destruct (oget (f_eff f) u).
    - apply bind_ok in Hf. destruct Hf as (nn & _ & Hf). apply bind_ok in Hf. destruct Hf as (c & _ & Hf). injection Hf as <-. split; reflexivity.
    - injection Hf as <-. split; reflexivity. }
  apply bind_ok in H. destruct H as (t1 & _ & H). apply bind_ok in H. destruct H as (t2 & _ & H). injection H as <- _.
  cbn [f_weights f_admin with_weights]. destruct E as (E1 & E2). rewrite E1. auto.
Qed.

Lemma weights_written l : forall f t f' t', fold_res update_weight_one (f, t) l = Ok (f', t') ->
  (forall u, oget (f_weights f') u = last_weight l u (oget (f_weights f) u)) /\ f_admin f' = f_admin f.
Proof.
  induction l as [|[u x] l IH]; intros f t f' t' H; cbn [fold_res] in H; [injection H as <- <-; split; reflexivity|].
  apply bind_ok in H. destruct H as ([f1 t1] & H1 & H). apply weight_one_writes in H1. destruct H1 as (E1 & E2).
  apply IH in H. destruct H as (G1 & G2). split; [|congruence]. intros v. rewrite G1, E1. unfold last_weight. cbn [fold_left fst snd]. rewrite oget_oset.
  reflexivity.
Qed.

Lemma minimum_keeps l b : forall f t f' t', fold_res (update_min_one b) (f, t) l = Ok (f', t') -> f_weights f' = f_weights f /\ f_admin f' = f_admin f.
Proof.
  induction l as [|[u x] l IH]; intros f t f' t' H; cbn [fold_res] in H; [injection H as <- <-; split; reflexivity|].
  apply bind_ok in H. destruct H as ([f1 t1] & H1 & H). apply IH in H. destruct H as (G1 & G2).
  unfold update_min_one in H1. apply bind_ok in H1. destruct H1 as (n & _ & H1). apply bind_ok in H1. destruct H1 as (c & _ & H1).
  apply bind_ok in H1. destruct H1 as (t2 & _ & H1). apply bind_ok in H1. destruct H1 as (t3 & _ & H1). injection H1 as <- _.
  rewrite G1, G2. split; reflexivity.
Qed.

Lemma funds_weights o f s coins m f' ps : funds_execute o f s coins m = Ok (f', ps) -> f_admin f' = f_admin f /\
  match m with
  | FUpdateUserWeights ch => s = f_admin f /\ forall u, oget (f_weights f') u = last_weight ch u (oget (f_weights f) u)
  | _ => f_weights f' = f_weights f
  end.
Proof.
  destruct m as [ch|mn| |user ns cs|x known]; cbn [funds_execute]; intros H.
  - apply bind_ok in H. destruct H as (f1 & H1 & H). injection H as <- _. unfold update_user_weights in H1.
    apply bind_ok in H1. destruct H1 as (? & Hg & H1). apply guard_ok in Hg. apply N.eqb_eq in Hg.
    apply bind_ok in H1. destruct H1 as ([f2 t2] & H2 & H1). injection H1 as <-. apply weights_written in H2. destruct H2 as (G1 & G2). auto.
  - apply bind_ok in H. destruct H as (f1 & H1 & H). injection H as <- _. unfold update_minimum in H1.
    apply bind_ok in H1. destruct H1 as (? & _ & H1). destruct (f_min f =? mn); [injection H1 as <-; auto|].
    destruct (if f_min f <? mn then (f_min f, mn) else (mn, f_min f)) as (lo & hi).
    apply bind_ok in H1. destruct H1 as ([f2 t2] & H2 & H1). injection H1 as <-. apply minimum_keeps in H2. destruct H2 as (G1 & G2). auto.
  - apply bind_ok in H. destruct H as (f1 & H1 & H). injection H as <- _. unfold distribute_native in H1.
    repeat (apply bind_ok in H1; destruct H1 as (? & _ & H1)). injection H1 as <-. split; reflexivity.
  - unfold claim_rewards in H. repeat (apply bind_ok in H; let y := fresh in destruct H as (y & _ & H); try destruct y). all: injection H as <- _; split; reflexivity.
  - destruct known; [|discriminate]. apply bind_ok in H. destruct H as (f1 & H1 & H). injection H as <- _. unfold distribute_cw20 in H1.
    repeat (apply bind_ok in H1; destruct H1 as (? & _ & H1)). injection H1 as <-. split; reflexivity.
Qed.

(** following the reported changes ends where writing them ends *)
Lemma replay_last ch : forall u x y o, replay u x ch = Some y ->
  let o' := last_weight (map (fun c => (wc_user c, wc_new c)) ch) u o in
  dflt 0 o' = y \/ (o' = o /\ y = x).
Proof.
  induction ch as [|c ch IH]; intros u x y o H; cbn [replay fold_left last_weight map fst snd] in *.
  - injection H as <-. right. split; reflexivity.
  - destruct (wc_user c =? u).
    + destruct (wc_old c =? x).
      * destruct (IH u (wc_new c) y (Some (wc_new c)) H) as [E|(E1 & E2)]; [left; exact E|]. left.
        unfold last_weight in E1. rewrite E1. cbn [dflt]. congruence.
      * exfalso. clear IH. induction ch as [|c' ch IH]; [discriminate|]. cbn [fold_left] in H. auto.
    + exact (IH u x y o H).
Qed.

Section R.
Context {X : Type}.
Variable Out : outside X.
Variable A : addrs.
Hypothesis HA : NoDup (dao_addrs A).
Local Notation world := (world X).
Local Notation go := (go Out A).
Local Notation ctl_addr := (a_controller A).
Local Notation gov_addr := (a_governance A).
Local Notation member_addr := (a_membership A).

Record fit (w : world) : Prop := mk_fit {
  fi_hooks : okeys (m_hooks (members_of (w_member w))) = [ctl_addr];
  fi_ent : m_enterprise (members_of (w_member w)) = a_enterprise A;
  fi_small : small (w_member w);
  fi_admin : f_admin (w_funds w) = ctl_addr
}.

Definition follows (w w' : world) : Prop := forall u, reward_weight w' u = weight_of (w_member w') u \/ as_before w w' u.

Lemma follows_same (w w' : world) : w_member w' = w_member w -> f_weights (w_funds w') = f_weights (w_funds w) -> follows w w'.
Proof. intros E1 E2 u. right. unfold as_before, reward_weight. rewrite E1, E2. auto. Qed.
Lemma follows_refl (w : world) : follows w w.
Proof. apply follows_same; reflexivity. Qed.
Lemma follows_trans (a b c : world) : follows a b -> follows b c -> follows a c.
Proof.
  intros H1 H2 u. destruct (H2 u) as [E|(E1 & E2)]; [left; exact E|]. destruct (H1 u) as [F|(F1 & F2)]; [left; congruence|].
  right. split; congruence.
Qed.

Lemma fit_same (w w' : world) : w_member w' = w_member w -> f_admin (w_funds w') = f_admin (w_funds w) -> fit w -> fit w'.
Proof. intros E1 E2 [F1 F2 F3 F4]. split; rewrite ?E1, ?E2; assumption. Qed.

Lemma told_by (w : world) : wired A w -> fit w -> forall r, mo_controller (member_oracle_of Out A w (w_member w)) = Ok r -> r = ctl_addr.
Proof.
  intros W F r H. cbn in H. rewrite (fi_ent _ F) in H. destruct (wired_components Out _ _ W) as (att & HC). cbn in HC.
  rewrite (wi_of _ _ W) in HC. rewrite HC in H. cbn in H. congruence.
Qed.

Lemma undisturbed_back (w w' : world) : ahead w w' -> undisturbed A w' -> undisturbed A w.
Proof.
  intros HA' H id p m (coins & Ha) Hp Hm. destruct HA' as ((_ & _ & K) & l & El).
  destruct (K _ _ Hp) as (p' & Hp' & Hc & _). eapply H; [|exact Hp'|rewrite (customs_content _ _ Hc); exact Hm].
  exists coins. rewrite El. apply in_or_app. right. exact Ha.
Qed.

Lemma mild_nice m : mild A m -> ~ meddles A m.
Proof.
  intros (S & M) H. destruct m; try exact H. cbn [meddles] in H. match goal with wm : wasm_msg |- _ => destruct wm; try exact H end.
  - destruct H as (-> & H). destruct S as (_ & _ & S). specialize (S eq_refl _ eq_refl).
    match goal with mm : member_msg |- _ => destruct mm as [x|x|x|x]; destruct x; try exact H; try discriminate S;
      match goal with c : stake_msg |- _ => destruct c; try exact H; discriminate S end end.
  - match goal with fm : funds_msg |- _ => destruct fm; try exact H end. subst. exact (M _ _ eq_refl).
Qed.
Lemma not_tame mm : tame_member mm = false -> resets mm.
Proof.
  destruct mm as [x|x|x|x]; destruct x; cbn; try discriminate; auto;
    match goal with c : stake_msg |- _ => destruct c; try discriminate; auto end.
Qed.

Definition jfit (j : job) : Prop :=
  match j with
  | JMsg s m => (s = ctl_addr -> ~ meddles A m) /\ (s = member_addr -> dull m)
  | JSubs self subs => (self = ctl_addr -> fine subs /\ Forall (fun x => ~ meddles A (sm_msg x)) subs) /\
      (self = member_addr -> Forall (fun x => dull (sm_msg x)) subs)
  end.

Lemma jfit_fine j : jfit j -> match j with JSubs self subs => self = ctl_addr -> fine subs | JMsg _ _ => True end.
Proof. destruct j; [auto|]. intros (H & _) E. exact (proj1 (H E)). Qed.

Lemma turn_nice w e s m w1 subs1 : turn Out A w e s m w1 subs1 -> s <> member_addr ->
  (forall id p c, m = CExecuteActions id -> s = ctl_addr -> oget (ct_proposals (w_ctl w)) id = Some p -> In c (customs p) -> ~ meddles A c) ->
  Forall (fun x => ~ meddles A (sm_msg x)) subs1.
Proof.
  intros T HS HC. destruct T.
  - eapply Forall_impl; [|eassumption]. intros x (to & t & ->) HM. exact HM.
  - constructor.
  - constructor.
  - apply Forall_app. split.
    + destruct (p_status pl); [constructor| |constructor]. constructor; [|constructor]. intros HM. exact HM.
    + eapply Forall_impl; [|eassumption]. intros x (_ & HM). exact (mild_nice _ HM).
  - contradiction.
  - eapply Forall_impl; [|eassumption]. intros x (_ & [HM|(HM & _)]); [|exact (mild_nice _ HM)]. eapply HC; eauto.
  - eapply Forall_impl; [|eassumption]. intros x (_ & HM & _). exact (mild_nice _ HM).
Qed.

Lemma turn_funds w e s m w1 subs1 : turn Out A w e s m w1 subs1 -> w_funds w1 = w_funds w /\ w_member w1 = w_member w.
Proof.
  intros T. apply turn_stepped in T. destruct T as (l & E1 & E2 & _). split; [|exact E2]. injection E1. auto.
Qed.

Lemma turn_told w e ch w1 subs1 : turn Out A w e member_addr (CWeightsChanged ch) w1 subs1 -> subs1 = [funds_notice A ch].
Proof.
  intros T. inversion T; subst; try reflexivity; [contradiction|].
  match goal with Q : _ \/ _ |- _ => destruct Q as [Q|(ch' & _ & Q)]; [discriminate Q|destruct (council_not_member A HA (eq_sym Q))] end.
Qed.

Lemma funds_received n w e s m coins w1 subs d : handle Out A n w e s (a_funds A) m coins = Ok (w1, subs, d) ->
  exists fm o pays, m = ToFunds fm /\ funds_execute o (w_funds w) s coins fm = Ok (w_funds w1, pays).
Proof.
  pose proof (apart A HA) as AP. decompose [and] AP. clear AP. intros HH1. apply handle_all in HH1.
  destruct HH1 as [(E & _)|[(E & _)|[(E & _)|[(E & _)|[(_ & _ & fm & pays & E & R)|[(E & _)|[(E & _)|[(E & _)|(E & _)]]]]]]]]; try congruence.
  - exists fm, (funds_oracle_of Out A n w), pays. auto.
  - exfalso. apply E. unfold dao_addrs. cbn [In]. tauto.
Qed.
Lemma funds_handled n w e s ch coins w1 subs d : handle Out A n w e s (a_funds A) (ToFunds ch) coins = Ok (w1, subs, d) ->
  exists o pays, funds_execute o (w_funds w) s coins ch = Ok (w_funds w1, pays).
Proof. intros H. apply funds_received in H. destruct H as (fm & o & pays & E & R). injection E as <-. eauto. Qed.
Lemma not_funds n w e s to m coins w1 subs d : handle Out A n w e s to m coins = Ok (w1, subs, d) -> to <> a_funds A -> w_funds w1 = w_funds w.
Proof.
  intros H1 HT. apply handle_all in H1.
  destruct H1 as [(E & H & _)|[(E & H & _)|[(E & H & _)|[(E & H & _)|[(E & _)|[(E & H & _)|[(E & H & _)|[(E & H & _)|(E & H)]]]]]]]];
    try (exact (same_funds _ _ _ H ltac:(discriminate))). contradiction.
Qed.

Lemma reply_member w e id r w1 more : on_reply Out A w e member_addr id r = Ok (w1, more) -> False.
Proof.
  pose proof (apart A HA) as AP. decompose [and] AP. clear AP. unfold on_reply.
  destruct (N.eqb_spec member_addr ctl_addr); [congruence|]. destruct (N.eqb_spec member_addr (a_enterprise A)); [congruence|].
  destruct (N.eqb_spec member_addr (a_treasury A)); [congruence|].
  assert (E : is_dao A member_addr = true) by (unfold is_dao, dao_addrs; cbn; rewrite N.eqb_refl, ?Bool.orb_true_r; reflexivity). rewrite E. discriminate.
Qed.

Lemma go_follows n : forall (w : world) e j w' d, go n w e j = Ok (w', d) -> wired A w -> fit w -> jfit j ->
  size w' < M64 -> undisturbed A w' -> fit w' /\ follows w w'.
Proof.
  induction n as [n IH] using lt_wf_ind. intros w e j w' d H HW HF HJ HS HN.
  destruct j as [s m|self [|x rest]].
  - destruct n as [|n]; [discriminate|].
    apply go_msg in H. destruct H as [(to & wm & coins & x & w1 & subs & d' & -> & Hx & Hh & Hg)|(NE & Ho)].
    + destruct (start_wired A w s (WasmExecute to wm coins) x HW) as (W0 & K0 & S0).
      assert (LG : w_log (set_ext (note w s (WasmExecute to wm coins)) x) = (s, WasmExecute to wm coins) :: w_log w) by reflexivity.
      assert (F0 : fit (set_ext (note w s (WasmExecute to wm coins)) x)) by (apply (fit_same w); try reflexivity; exact HF).
      assert (P0 : forall w2, follows (set_ext (note w s (WasmExecute to wm coins)) x) w2 -> follows w w2).
      { intros w2 P. eapply follows_trans; [|exact P]. apply follows_same; reflexivity. }
      set (w0 := set_ext (note w s (WasmExecute to wm coins)) x) in *.
      pose proof (go_size _ _ _ _ _ _ _ _ Hg) as GS. pose proof Hh as Hh'.
      apply handle_cases in Hh. destruct Hh as [(-> & cm & s' & -> & He & -> & _)|[(-> & gm & g & -> & He & -> & ->)|[(-> & mm & s' & outs & -> & He & -> & -> & _)|(N1 & N2 & N3 & Q)]]].
      * (* the controller *)
        assert (SM : s <> member_addr). { intros E. destruct HJ as (_ & J). exact (J E _ _ _ eq_refl). }
        destruct (ctl_turn _ _ HA _ _ _ _ _ _ _ _ _ _ W0 He Hg) as (n' & w1 & subs1 & L & T & d2 & G).
        pose proof (go_size _ _ _ _ _ _ _ _ G) as GS1.
        pose proof T as TW. apply turn_wired in TW; [|assumption|lia]. destruct TW as (W1 & K1 & F1).
        destruct (layer1 Out A HA _ _ _ _ _ _ G W1 (fun _ => F1) HS) as (_ & K2).
        assert (LW : exists l, w_log w' = l ++ w_log w0).
        { destruct (go_log _ _ _ _ _ _ _ _ Hg) as (l & El). exists l. exact El. }
        pose proof (undisturbed_back w0 w' (conj (kept_trans _ _ _ K1 K2) LW) HN) as HN0.
        destruct (turn_funds _ _ _ _ _ _ T) as (TF & TM).
        destruct (IH n' ltac:(lia) _ _ _ _ _ G W1) as (C1 & C2); [|split|exact HS|exact HN|].
        -- apply (fit_same w0); [exact TM|rewrite TF; reflexivity|exact F0].
        -- intros _. split; [exact F1|]. apply (turn_nice _ _ _ _ _ _ T SM). intros id p c -> E Hp' Hc. apply (HN0 id p c); [|exact Hp'|exact Hc].
           exists coins. rewrite LG, E. left. reflexivity.
        -- intros E. destruct (member_not_ctl A HA (eq_sym E)).
        -- split; [exact C1|]. apply P0. eapply follows_trans; [|exact C2]. apply follows_same; [exact TM|rewrite TF; reflexivity].
      * (* governance *)
        apply go_nil in Hg. destruct Hg as [-> _]. split; [apply (fit_same w0); try reflexivity; exact F0|]. apply P0. apply follows_same; reflexivity.
      * (* membership *)
        pose proof (accepts_deed (w_member w0) (mk_mcall (member_oracle_of Out A w0 (w_member w0)) e s coins mm) s' outs (fi_small _ F0) He) as (DD & TM).
        cbn [mc_msg mc_oracle mc_sender] in TM.
        assert (TA : tame_member mm = true).
        { destruct (tame_member mm) eqn:Et; [reflexivity|]. exfalso. apply (told_by _ W0 F0) in TM. destruct HJ as (J & _). apply (J TM). split; [reflexivity|apply not_tame; exact Et]. }
        rewrite TA in TM.
        assert (SML : small s') by exact (accepts_small (w_member w0) (mk_mcall (member_oracle_of Out A w0 (w_member w0)) e s coins mm) _ _ (fi_small _ F0) He).
        assert (ENT : m_enterprise (members_of s') = a_enterprise A).
        { destruct (settings_by_controller (w_member w0) (mk_mcall (member_oracle_of Out A w0 (w_member w0)) e s coins mm) _ _ He) as (E & _).
          rewrite E. apply F0. }
        destruct (member_wired A w0 s' W0) as (W1 & _).
        assert (F1 : fit (set_member w0 s')).
        { split; [cbn; rewrite TM; apply F0|exact ENT|exact SML|apply F0]. }
        destruct DD as [DW DT DR|ch DO DT DF].
        -- destruct (IH n ltac:(lia) _ _ _ _ _ Hg W1 F1) as (C1 & C2); [|exact HS|exact HN|].
           { split; [intros E; destruct (member_not_ctl A HA E)|]. intros _. apply Forall_forall. intros y Hy. apply in_map_iff in Hy.
             destruct Hy as (o & <- & Ho). apply out_dull. intros h ch ->. exact (DR h ch Ho). }
           split; [exact C1|]. apply P0. eapply follows_trans; [|exact C2]. intros u. right. split; [reflexivity|].
           cbn. unfold weight_of. rewrite DW. reflexivity.
        -- assert (TR : forall u, replay u (weight_of (w_member w0) u) ch = Some (weight_of s' u)).
           { intros u. pose proof (accepts_told (w_member w0) (mk_mcall (member_oracle_of Out A w0 (w_member w0)) e s coins mm) s' outs
               (proj2 (proj1 (fi_small _ F0))) He) as TD. cbn [mc_msg] in TD.
             specialize (TD ltac:(intros l ->; discriminate) ctl_addr u). destruct TD as (TD & _).
             assert (HH : ohas (m_hooks (members_of s')) ctl_addr = true).
             { rewrite TM. apply ohas_true, okeys_In. rewrite (fi_hooks _ F0). left. reflexivity. }
             rewrite DO, told_report, HH in TD. apply TD. rewrite <- TM. exact HH. }
           rewrite DO in Hg. unfold report in Hg. rewrite TM, (fi_hooks _ F0) in Hg. cbn [map member_sub] in Hg.
           set (msg := WasmExecute ctl_addr (ToController (CWeightsChanged ch)) []) in *.
           apply go_cons in Hg. destruct Hg as (n1 & -> & Hg). cbn [sm_msg sm_reply plain] in Hg.
           destruct Hg as [(w1' & d1 & H1 & [(_ & H2)|(id & w2 & more & w3 & d3 & [E|E] & _)])|(id & w2 & more & w3 & d3 & _ & E & _)]; try discriminate.
           apply go_nil in H2. destruct H2 as [-> _].
           destruct n1 as [|n2]; [discriminate|].
           apply go_msg in H1. destruct H1 as [(to2 & wm2 & coins2 & x2 & w12 & subs2 & d'2 & EM & _ & Hh & Hg)|(NE & _)]; [|destruct (NE _ _ _ eq_refl)].
           unfold msg in EM. injection EM as <- <- <-. fold msg in Hh.
           destruct (start_wired A (set_member w0 s') member_addr msg x2 W1) as (W2 & _).
           assert (M00 : w_member (set_ext (note (set_member w0 s') member_addr msg) x2) = s') by reflexivity.
           assert (N00 : w_funds (set_ext (note (set_member w0 s') member_addr msg) x2) = w_funds w0) by reflexivity.
           set (w00 := set_ext (note (set_member w0 s') member_addr msg) x2) in *.
           apply handle_cases in Hh. destruct Hh as [(_ & cm & cs & EC & He2 & -> & _)|[(E & _)|[(E & _)|(E & _)]]];
             [|destruct (gov_not_ctl A HA (eq_sym E))|destruct (member_not_ctl A HA (eq_sym E))|destruct (E eq_refl)].
           injection EC as <-.
           destruct (ctl_turn _ _ HA _ _ _ _ _ _ _ _ _ _ W2 He2 Hg) as (n' & w1 & subs1 & L & T & d2 & G).
           destruct (turn_funds _ _ _ _ _ _ T) as (TF & TM2).
           pose proof (turn_told _ _ _ _ _ T) as ES.
           rewrite ES in G. unfold funds_notice in G.
           set (note_ := WasmExecute (a_funds A) (ToFunds (FUpdateUserWeights (map (fun c => (wc_user c, wc_new c)) ch))) []) in *.
           apply go_cons in G. destruct G as (n3 & -> & G). cbn [sm_msg sm_reply plain] in G.
           destruct G as [(w4 & d4 & H4 & [(_ & H5)|(id & w2 & more & w3 & d3 & [E|E] & _)])|(id & w2 & more & w3 & d3 & _ & E & _)]; try discriminate.
           apply go_nil in H5. destruct H5 as [-> _].
           destruct n3 as [|n4]; [discriminate|].
           apply go_msg in H4. destruct H4 as [(to5 & wm5 & coins5 & x5 & w5 & subs5 & d5 & EM & _ & Hh5 & Hg5)|(NE & _)]; [|destruct (NE _ _ _ eq_refl)].
           unfold note_ in EM. injection EM as <- <- <-. fold note_ in Hh5.
           pose proof T as TW. pose proof (go_size _ _ _ _ _ _ _ _ Hg5) as GS5. pose proof (handle_log _ _ _ _ _ _ _ _ _ _ _ _ Hh5) as HL5.
           assert (SZ1 : size w1 < M64).
           { unfold size in *. rewrite HL5 in GS5. cbn [w_log note set_ext length] in GS5. lia. }
           apply turn_wired in TW; [|assumption|exact SZ1]. destruct TW as (W3 & _ & _).
           destruct (start_wired A w1 ctl_addr note_ x5 W3) as (W4 & _).
           destruct (funds_apart A HA) as (FA1 & FA2 & FA3).
           pose proof Hh5 as Hq. apply handle_cases in Hq.
           destruct Hq as [(E & _)|[(E & _)|[(E & _)|(_ & _ & _ & Q)]]]; [destruct (FA1 E)|destruct (FA2 E)|destruct (FA3 E)|].
           destruct (quiet_wired A _ _ Q W4) as (W5 & _).
           assert (M5 : w_member w5 = s').
           { destruct Q as (_ & _ & Q & _). rewrite Q. change (w_member w1 = s'). congruence. }
           assert (R5 : f_admin (w_funds w5) = ctl_addr /\ forall u, oget (f_weights (w_funds w5)) u =
             last_weight (map (fun c => (wc_user c, wc_new c)) ch) u (oget (f_weights (w_funds w0)) u)).
           { destruct (funds_handled _ _ _ _ _ _ _ _ _ Hh5) as (o & pays & R). apply funds_weights in R.
             change (w_funds (set_ext (note w1 ctl_addr note_) x5)) with (w_funds w1) in R. rewrite TF, N00 in R.
             destruct R as (R1 & _ & R2). split; [rewrite R1; apply F0|exact R2]. }
           destruct R5 as (R5 & R6).
           assert (F5 : fit w5) by (split; [rewrite M5, TM; apply F0|rewrite M5; exact ENT|rewrite M5; exact SML|exact R5]).
           destruct (IH n4 ltac:(lia) _ _ _ _ _ Hg5 W5 F5) as (C1 & C2); [|exact HS|exact HN|].
           { split; intros E; [destruct (FA1 E)|destruct (FA3 E)]. }
           split; [exact C1|]. apply P0. eapply follows_trans; [|exact C2]. intros u.
           unfold as_before, reward_weight, ogetN. rewrite M5, R6.
           destruct (replay_last ch u _ _ (oget (f_weights (w_funds w0)) u) (TR u)) as [E|(E1 & E2)]; [left; exact E|right].
           rewrite E1. split; [reflexivity|exact E2].
      * (* the others *)
        destruct (quiet_wired A _ _ Q W0) as (W1 & _).
        assert (M1 : w_member w1 = w_member w0) by (destruct Q as (_ & _ & Q & _); exact Q).
        assert (R1 : f_admin (w_funds w1) = f_admin (w_funds w0) /\ f_weights (w_funds w1) = f_weights (w_funds w0)).
        { destruct (N.eq_dec to (a_funds A)) as [->|N4].
          - destruct (funds_received _ _ _ _ _ _ _ _ _ Hh') as (fm & o & pays & -> & R). apply funds_weights in R. destruct R as (R1 & R2).
            split; [exact R1|]. destruct fm; try exact R2. exfalso. destruct R2 as (R2 & _). rewrite (fi_admin _ F0) in R2.
            destruct HJ as (J & _). apply (J R2). reflexivity.
          - rewrite (not_funds _ _ _ _ _ _ _ _ _ _ Hh' N4). split; reflexivity. }
        destruct R1 as (R1 & R2).
        destruct (IH n ltac:(lia) _ _ _ _ _ Hg W1 (fit_same _ _ M1 R1 F0)) as (C1 & C2); [|exact HS|exact HN|].
        { split; intros E; [destruct (N1 E)|destruct (N3 E)]. }
        split; [exact C1|]. apply P0. eapply follows_trans; [|exact C2]. apply follows_same; assumption.
    + apply other_all in Ho. split.
      * apply (fit_same w); [exact (same_member _ _ _ Ho ltac:(discriminate))|rewrite (same_funds _ _ _ Ho ltac:(discriminate)); reflexivity|exact HF].
      * apply follows_same; [exact (same_member _ _ _ Ho ltac:(discriminate))|rewrite (same_funds _ _ _ Ho ltac:(discriminate)); reflexivity].
  - apply go_nil in H. destruct H as [-> _]. split; [exact HF|apply follows_refl].
  - apply go_cons in H. destruct H as (n' & -> & H).
    assert (JX : jfit (JMsg self (sm_msg x))).
    { destruct HJ as (J1 & J2). split; intros E; [exact (Forall_inv (proj2 (J1 E)))|exact (Forall_inv (J2 E))]. }
    assert (JR : jfit (JSubs self rest)).
    { destruct HJ as (J1 & J2). split; intros E; [split; [exact (Forall_inv_tail (proj1 (J1 E)))|exact (Forall_inv_tail (proj2 (J1 E)))]|exact (Forall_inv_tail (J2 E))]. }
    assert (REPLY : forall wa id r wb more, sm_reply x = ReplySuccess id \/ sm_reply x = ReplyAlways id -> wired A wa -> fit wa ->
      on_reply Out A wa e self id r = Ok (wb, more) -> wired A wb /\ fit wb /\ kept wa wb /\ follows wa wb /\ jfit (JSubs self more)).
    { intros wa id r wb more HI Wa Fa Hr. pose proof Hr as Hr0. apply reply_cases in Hr. destruct Hr as [(Es & s' & Hr & ->)|(NN & Q)].
      - assert (id = 3) as ->. { destruct HJ as (J1 & _). destruct (J1 Es) as (FF & _). inversion FF as [|? ? F0 ?]; subst. destruct HI as [E|E], F0 as [F|F]; congruence. }
        apply reply_3 in Hr. destruct Hr as [-> ->]. rewrite set_ctl_same. split; [exact Wa|]. split; [exact Fa|]. split; [apply kept_refl|].
        split; [apply follows_refl|]. split; intros _; [split|]; constructor.
      - destruct (quiet_wired A _ _ Q Wa) as (Wq & Kq). split; [exact Wq|]. pose proof Hr0 as HA0. apply reply_all in HA0.
        assert (EF : w_funds wb = w_funds wa).
        { destruct HA0 as [(H0 & _)|[(H0 & _)|H0]]; exact (same_funds _ _ _ H0 ltac:(discriminate)). }
        destruct Q as (_ & _ & QM & _). split; [apply (fit_same wa); [exact QM|rewrite EF; reflexivity|exact Fa]|]. split; [exact Kq|].
        split; [apply follows_same; [exact QM|rewrite EF; reflexivity]|]. split; intros E; [destruct (NN E)|].
        exfalso. rewrite E in Hr0. exact (reply_member _ _ _ _ _ _ Hr0). }
    assert (HR : forall wa id r wb more wc dc dd, sm_reply x = ReplySuccess id \/ sm_reply x = ReplyAlways id ->
      wired A wa -> fit wa -> on_reply Out A wa e self id r = Ok (wb, more) -> go n' wb e (JSubs self more) = Ok (wc, dc) ->
      go n' wc e (JSubs self rest) = Ok (w', dd) -> fit w' /\ follows wa w' /\ kept wa w').
    { intros wa id r wb more wc dc dd HI Wa Fa Hr Hg1 Hg2. destruct (REPLY _ _ _ _ _ HI Wa Fa Hr) as (Wb & Fb & Kb & Pb & Jb).
      pose proof (go_size _ _ _ _ _ _ _ _ Hg2) as S2.
      destruct (layer1 Out A HA _ _ _ _ _ _ Hg1 Wb (jfit_fine _ Jb) ltac:(lia)) as (Wc & K1).
      destruct (layer1 Out A HA _ _ _ _ _ _ Hg2 Wc (jfit_fine _ JR) HS) as (_ & K2).
      pose proof (undisturbed_back _ _ (conj K2 (go_log _ _ _ _ _ _ _ _ Hg2)) HN) as Nc.
      destruct (IH n' ltac:(lia) _ _ _ _ _ Hg1 Wb Fb Jb ltac:(lia) Nc) as (Fc & Pc).
      destruct (IH n' ltac:(lia) _ _ _ _ _ Hg2 Wc Fc JR HS HN) as (Fd & Pd).
      split; [exact Fd|]. split; [exact (follows_trans _ _ _ Pb (follows_trans _ _ _ Pc Pd))|]. exact (kept_trans _ _ _ Kb (kept_trans _ _ _ K1 K2)). }
    destruct H as [(w1 & d1 & H1 & [(_ & H2)|(id & w2 & more & w3 & d3 & E & H2 & H3 & H4)])|(id & w2 & more & w3 & d3 & _ & E & H2 & H3 & H4)].
    + pose proof (go_size _ _ _ _ _ _ _ _ H2).
      destruct (layer1 Out A HA _ _ _ _ _ _ H1 HW I ltac:(lia)) as (W1 & _).
      destruct (layer1 Out A HA _ _ _ _ _ _ H2 W1 (jfit_fine _ JR) HS) as (_ & K2).
      pose proof (undisturbed_back _ _ (conj K2 (go_log _ _ _ _ _ _ _ _ H2)) HN) as N1.
      destruct (IH n' ltac:(lia) _ _ _ _ _ H1 HW HF JX ltac:(lia) N1) as (F1 & P1).
      destruct (IH n' ltac:(lia) _ _ _ _ _ H2 W1 F1 JR HS HN) as (F2 & P2). split; [exact F2|exact (follows_trans _ _ _ P1 P2)].
    + assert (SZ : size w1 < M64).
      { pose proof (go_size _ _ _ _ _ _ _ _ H3). pose proof (go_size _ _ _ _ _ _ _ _ H4). apply reply_log in H2. unfold size in *. rewrite H2 in *. lia. }
      destruct (layer1 Out A HA _ _ _ _ _ _ H1 HW I SZ) as (W1 & _).
      assert (K : kept w1 w').
      { assert (WB : wired A w2 /\ kept w1 w2 /\ (self = ctl_addr -> fine more)).
        { pose proof H2 as Hr. apply reply_cases in Hr. destruct Hr as [(Es & s' & Hr & ->)|(NN & Q)].
          - assert (id = 3) as ->. { destruct HJ as (J1 & _). destruct (J1 Es) as (FF & _). inversion FF as [|? ? F0 ?]; subst. destruct E as [E|E], F0 as [F|F]; congruence. }
            apply reply_3 in Hr. destruct Hr as [-> ->]. rewrite set_ctl_same. split; [exact W1|]. split; [apply kept_refl|]. intros _; constructor.
          - destruct (quiet_wired A _ _ Q W1) as (Wq & Kq). split; [exact Wq|]. split; [exact Kq|]. intros E'; destruct (NN E'). }
        destruct WB as (W2 & K12 & F2). pose proof (go_size _ _ _ _ _ _ _ _ H4).
        destruct (layer1 Out A HA _ _ _ _ _ _ H3 W2 F2 ltac:(lia)) as (W3 & K23).
        destruct (layer1 Out A HA _ _ _ _ _ _ H4 W3 (jfit_fine _ JR) HS) as (_ & K34).
        exact (kept_trans _ _ _ K12 (kept_trans _ _ _ K23 K34)). }
      assert (N1 : undisturbed A w1).
      { apply (undisturbed_back w1 w'); [|exact HN]. split; [exact K|].
        destruct (go_log _ _ _ _ _ _ _ _ H3) as (l3 & E3). destruct (go_log _ _ _ _ _ _ _ _ H4) as (l4 & E4). apply reply_log in H2. exists (l4 ++ l3). rewrite E4, E3, H2, app_assoc. reflexivity. }
      destruct (IH n' ltac:(lia) _ _ _ _ _ H1 HW HF JX SZ N1) as (F1 & P1).
      destruct (HR w1 id _ _ _ _ _ _ E W1 F1 H2 H3 H4) as (F2 & P2 & _). split; [exact F2|exact (follows_trans _ _ _ P1 P2)].
    + destruct (HR w id _ _ _ _ _ _ (or_intror E) HW HF H2 H3 H4) as (F2 & P2 & _). split; assumption.
Qed.

Lemma run_follows ts : forall w : world, wired A w -> fit w -> size (world_run Out A w ts) < M64 -> undisturbed A (world_run Out A w ts) ->
  follows w (world_run Out A w ts).
Proof.
  induction ts as [|t ts IH]; intros w HW HF HS HN; [apply follows_refl|].
  change (world_run Out A w (t :: ts)) with (world_run Out A (world_step Out A w t) ts) in *. pose proof (run_size Out A ts (world_step Out A w t)) as S1.
  destruct (WorldRun.step_cases Out A w t) as [E|(d & Hd & H)]; [rewrite E in *; apply IH; assumption|].
  assert (H1 : wired A (world_step Out A w t)) by (eapply layer1; [exact HA|exact H|exact HW|exact I|lia]).
  destruct (run_ahead Out A HA ts _ H1 HS) as (_ & A2 & _). destruct (dao_signer A _ Hd) as (N1 & N2).
  destruct (go_follows _ _ _ _ _ _ H HW HF) as (F1 & P1); [split; intros E; contradiction|lia|exact (undisturbed_back _ _ A2 HN)|].
  eapply follows_trans; [exact P1|]. apply IH; assumption.
Qed.

End R.
