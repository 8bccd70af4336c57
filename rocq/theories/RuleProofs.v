(** Settings change only when a proposal about them is run: induction over everything delivered. *)
From Verif Require Import Base OMap OMapLemmas Assets PollModel PollSpec PollProofs PollFacts FundsModel FundsSpec MemberModel MemberSpec
  MemberProofs MemberFacts Msgs ControllerModel ControllerSpec ControllerProofs ControllerFacts TreasuryModel TreasurySpec TreasuryProofs
  EnterpriseModel EnterpriseSpec EnterpriseFacts OutpostsModel WorldModel WorldSpec WorldMember WorldProofs WorldRun LiftFacts FacadeSpec
  RewardProofs PurseSpec PurseProofs RuleSpec.

(** * One contract at a time *)

Lemma assets_keep_nfts l t t' : add_assets t l = Ok t' -> tr_nfts t' = tr_nfts t.
Proof.
  unfold add_assets. intros H. apply bind_ok in H. destruct H as (l' & _ & H).
  refine (fold_res_inv (fun x => tr_nfts x = tr_nfts t) _ _ _ t t' eq_refl H).
  intros s a s' _ Hs Ha. destruct a; cbn in Ha; [injection Ha as <-; exact Hs..|discriminate].
Qed.
Lemma unassets_keep_nfts l t t' : remove_assets t l = Ok t' -> tr_nfts t' = tr_nfts t.
Proof.
  unfold remove_assets. intros H. refine (fold_res_inv (fun x => tr_nfts x = tr_nfts t) _ _ _ t t' eq_refl H).
  intros s a s' _ Hs Ha. destruct a; cbn in Ha.
  - injection Ha as <-. exact Hs.
  - apply bind_ok in Ha. destruct Ha as (c & _ & Ha). injection Ha as <-. exact Hs.
  - apply bind_ok in Ha. destruct Ha as (c & _ & Ha). injection Ha as <-. destruct (oget (tr_cw1155s s) c); exact Hs.
Qed.
Definition lists (t : treasury) := (tr_natives t, tr_cw20s t, tr_cw1155s t).
Lemma nfts_keep_assets l t t' : fold_res add_nft t l = Ok t' -> lists t' = lists t.
Proof.
  intros H. refine (fold_res_inv (fun x => lists x = lists t) _ _ _ t t' eq_refl H).
  intros s a s' _ Hs Ha. unfold add_nft in Ha. apply bind_ok in Ha. destruct Ha as (c & _ & Ha). injection Ha as <-. exact Hs.
Qed.
Lemma unnfts_keep_assets l t t' : fold_res remove_nft t l = Ok t' -> lists t' = lists t.
Proof.
  intros H. refine (fold_res_inv (fun x => lists x = lists t) _ _ _ t t' eq_refl H).
  intros s a s' _ Hs Ha. unfold remove_nft in Ha. apply bind_ok in Ha. destruct Ha as (c & _ & Ha). injection Ha as <-. exact Hs.
Qed.

Lemma treasury_settings gas t s m t' subs : treasury_execute gas t s m = Ok (t', subs) ->
  ((exists a, m = TrSetAdmin a) -> s = tr_admin t) /\
  ((forall a, m <> TrSetAdmin a) -> tr_admin t' = tr_admin t) /\
  ((forall x y, m <> TrUpdateAssets x y) -> lists t' = lists t) /\ ((exists x y, m = TrUpdateAssets x y) -> s = tr_admin t) /\
  ((forall x y, m <> TrUpdateNfts x y) -> tr_nfts t' = tr_nfts t) /\ ((exists x y, m = TrUpdateNfts x y) -> s = tr_admin t).
Proof.
  intros H. unfold treasury_execute in H.
  assert (G : forall u, tr_admin_only t s = Ok u -> s = tr_admin t).
  { intros u Hu. unfold tr_admin_only in Hu. apply guard_ok in Hu. apply N.eqb_eq. exact Hu. }
  destruct m.
  - apply bind_ok in H. destruct H as (u & Hu & H). apply bind_ok in H. destruct H as (a' & Ha & H). injection H as <- <-.
    repeat split; intros; eauto; try reflexivity; exfalso; eapply H; reflexivity.
  - apply bind_ok in H. destruct H as (u & Hu & H). apply bind_ok in H. destruct H as (t1 & H1 & H). apply bind_ok in H. destruct H as (t2 & H2 & H).
    injection H as <- <-. pose proof (add_assets_frame _ _ _ H1) as (E1 & _). pose proof (remove_assets_frame _ _ _ H2) as (E2 & _).
    apply assets_keep_nfts in H1. apply unassets_keep_nfts in H2.
    repeat split; intros; eauto; try congruence; exfalso; eapply H; reflexivity.
  - apply bind_ok in H. destruct H as (u & Hu & H). apply bind_ok in H. destruct H as (t1 & H1 & H). apply bind_ok in H. destruct H as (t2 & H2 & H).
    injection H as <- <-. pose proof (add_nfts_frame _ _ _ H1) as (E1 & _). pose proof (remove_nfts_frame _ _ _ H2) as (E2 & _).
    apply nfts_keep_assets in H1. apply unnfts_keep_assets in H2.
    repeat split; intros; eauto; try congruence; exfalso; eapply H; reflexivity.
  - unfold spend in H. apply bind_ok in H. destruct H as (u & Hu & H). apply bind_ok in H. destruct H as (ms & Hm & H). injection H as <- <-.
    repeat split; intros; eauto.
  - unfold tr_distribute in H. apply bind_ok in H. destruct H as (u & Hu & H). apply bind_ok in H. destruct H as (d & Hd & H).
    apply bind_ok in H. destruct H as ([coins ms] & Hm & H). injection H as <- <-. repeat split; intros; eauto.
  - unfold execute_cosmos_msgs in H. apply bind_ok in H. destruct H as (u & Hu & H). apply bind_ok in H. destruct H as (l & Hl & H). injection H as <- <-.
    repeat split; intros; eauto.
  - apply bind_ok in H. destruct H as ([o ms] & H1 & H). injection H as <- <-.
    repeat split; try (intros; reflexivity); intros (? & E); try (destruct E as (? & E)); discriminate E.
Qed.


Lemma minimum_fold l b : forall f t f' t', fold_res (update_min_one b) (f, t) l = Ok (f', t') -> f_min f' = f_min f.
Proof.
  induction l as [|[u x] l IH]; intros f t f' t' H; cbn [fold_res] in H; [injection H as <- <-; reflexivity|].
  apply bind_ok in H. destruct H as ([f1 t1] & H1 & H). apply IH in H. rewrite H.
  unfold update_min_one in H1. apply bind_ok in H1. destruct H1 as (n & _ & H1). apply bind_ok in H1. destruct H1 as (c & _ & H1).
  apply bind_ok in H1. destruct H1 as (t2 & _ & H1). apply bind_ok in H1. destruct H1 as (t3 & _ & H1). injection H1 as <- _. reflexivity.
Qed.
Lemma weights_fold l : forall f t f' t', fold_res update_weight_one (f, t) l = Ok (f', t') -> f_min f' = f_min f.
Proof.
  induction l as [|[u x] l IH]; intros f t f' t' H; cbn [fold_res] in H; [injection H as <- <-; reflexivity|].
  apply bind_ok in H. destruct H as ([f1 t1] & H1 & H). apply IH in H. rewrite H. clear -H1.
  unfold update_weight_one in H1. apply bind_ok in H1. destruct H1 as (u' & _ & H). apply bind_ok in H. destruct H as (f2 & Hf & H).
  assert (E : f_min f2 = f_min f).
  { destruct (oget (f_eff f) u').
    - apply bind_ok in Hf. destruct Hf as (nn & _ & Hf). apply bind_ok in Hf. destruct Hf as (c & _ & Hf). injection Hf as <-. reflexivity.
    - injection Hf as <-. reflexivity. }
  apply bind_ok in H. destruct H as (t2 & _ & H). apply bind_ok in H. destruct H as (t3 & _ & H). injection H as <- _. exact E.
Qed.

Lemma funds_settings o f s coins m f' ps : funds_execute o f s coins m = Ok (f', ps) ->
  f_admin f' = f_admin f /\ ((forall x, m <> FUpdateMinimum x) -> f_min f' = f_min f) /\ ((exists x, m = FUpdateMinimum x) -> s = f_admin f).
Proof.
  intros H. split; [apply (funds_weights _ _ _ _ _ _ _ H)|]. destruct m as [ch|mn| |user ns cs|x known]; cbn [funds_execute] in H.
  - apply bind_ok in H. destruct H as (f1 & H1 & H). injection H as <- _. unfold update_user_weights in H1.
    apply bind_ok in H1. destruct H1 as (? & _ & H1). apply bind_ok in H1. destruct H1 as ([f2 t2] & H2 & H1). injection H1 as <-. apply weights_fold in H2.
    split; [intros _; exact H2|intros (? & E); discriminate].
  - split; [intros N1; destruct (N1 mn eq_refl)|]. intros _. apply bind_ok in H. destruct H as (f1 & H1 & _). unfold update_minimum in H1.
    apply bind_ok in H1. destruct H1 as (? & Hg & _). apply guard_ok in Hg. apply N.eqb_eq. exact Hg.
  - apply bind_ok in H. destruct H as (f1 & H1 & H). injection H as <- _. unfold distribute_native in H1.
    repeat (apply bind_ok in H1; destruct H1 as (? & _ & H1)). injection H1 as <-. split; [reflexivity|intros (? & E); discriminate].
  - unfold claim_rewards in H. repeat (apply bind_ok in H; let y := fresh in destruct H as (y & _ & H); try destruct y).
    all: injection H as <- _; split; [reflexivity|intros (? & E); discriminate].
  - destruct known; [|discriminate]. apply bind_ok in H. destruct H as (f1 & H1 & H). injection H as <- _. unfold distribute_cw20 in H1.
    repeat (apply bind_ok in H1; destruct H1 as (? & _ & H1)). injection H1 as <-. split; [reflexivity|intros (? & E); discriminate].
Qed.

(** messages to a membership contract that are about the unlocking period, the hooks, the members of a multisig *)
Definition about_period (m : member_msg) : bool :=
  match m with TokenMsg (TCommon (SUpdatePeriod _)) | DenomMsg (DCommon (SUpdatePeriod _)) | NftMsg (NUpdatePeriod _) => true | _ => false end.
Definition about_hooks (m : member_msg) : bool :=
  match m with
  | TokenMsg (TCommon (SAddHook _)) | TokenMsg (TCommon (SRemoveHook _)) | DenomMsg (DCommon (SAddHook _)) | DenomMsg (DCommon (SRemoveHook _))
  | NftMsg (NAddHook _) | NftMsg (NRemoveHook _) | MultisigMsg (MAddHook _) | MultisigMsg (MRemoveHook _) => true
  | _ => false
  end.
Definition about_members (m : member_msg) : bool :=
  match m with MultisigMsg (MUpdateMembers _) | MultisigMsg (MSetMembers _) => true | _ => false end.

Ltac noms := split; [intros ? E; discriminate E|].

Lemma member_settings o st e s coins m st' outs : member_execute o st e s coins m = Ok (st', outs) ->
  (about_period m = false -> period_of st' = period_of st) /\
  (about_hooks m = false -> m_hooks (members_of st') = m_hooks (members_of st)) /\
  (forall x, st = MMultisig x -> exists x', st' = MMultisig x' /\ (about_members m = false -> m_weights x' = m_weights x)) /\
  (about_period m || about_hooks m || about_members m = true -> mo_controller o = Ok s).
Proof.
  intros H.
  assert (S : forall s1 m1 s2 o2, stake_execute o s1 e s m1 = Ok (s2, o2) ->
     ((forall p, m1 <> SUpdatePeriod p) -> st_period s2 = st_period s1) /\
     ((forall h, m1 <> SAddHook h) -> (forall h, m1 <> SRemoveHook h) -> m_hooks (st_members s2) = m_hooks (st_members s1)) /\
     ((exists p, m1 = SUpdatePeriod p) \/ (exists h, m1 = SAddHook h) \/ (exists h, m1 = SRemoveHook h) -> mo_controller o = Ok s)).
  { intros s1 m1 s2 o2 H1. destruct m1; cbn [stake_execute] in H1.
    - apply unstake_ok in H1. destruct H1 as [r [_ [-> _]]]. cbn. repeat split; intros Q; repeat destruct Q as [Q|Q]; destruct Q; discriminate.
    - unfold claim_stake in H1. allb. cbn. repeat split; intros Q; repeat destruct Q as [Q|Q]; destruct Q; discriminate.
    - allb. unfold update_period in *. allb. split; [intros Q; destruct (Q p eq_refl)|]. destruct p; cbn; auto.
    - allb. unfold add_hook in *. allb. cbn. repeat split; auto. intros Q. destruct (Q h eq_refl).
    - allb. unfold remove_hook in *. allb. cbn. repeat split; auto. intros _ Q. destruct (Q h eq_refl). }
  destruct st as [s1|s1|s1|mm], m as [x|x|x|x]; cbn [member_execute] in H; try discriminate;
    apply bind_ok in H; destruct H as [[s2 o2] [H1 H]]; inversion H; subst; clear H; cbn [members_of period_of].
  - destruct x as [amount h|x]; cbn [token_execute] in H1.
    + unfold token_receive in H1. apply bind_ok in H1. destruct H1 as [? [_ H]].
      assert (G : st_period s2 = st_period s1 /\ m_hooks (st_members s2) = m_hooks (st_members s1)).
      { destruct h.
        - apply stake_token_ok in H. destruct H as [_ [_ H]]. apply add_stake_ok in H. destruct H as [-> _]. auto.
        - apply add_stakes_ok in H. destruct H as [m [ch [Hl [-> _]]]]. apply add_stakes_loop in Hl. destruct Hl as [w [more [-> _]]]. auto.
        - allb. unfold add_claims in *. allb.
          match goal with H : fold_res _ _ _ = Ok _ |- _ => revert H end. generalize 0 at 1.
          clear. revert s1. induction claims as [|[[u a] r] t IH]; intros s1 n H; cbn [fold_res] in H; [inversion H; subst; auto|].
          apply bind_ok in H. destruct H as [[s3 t3] [H2 H]]. apply IH in H. unfold add_claim in H2. allb. exact H.
        - discriminate. }
      destruct G as [G1 G2]. rewrite G1, G2. split; [reflexivity|]. split; [reflexivity|]. noms. intros E; discriminate E.
    + destruct (S _ _ _ _ H1) as (G1 & G2 & G3). destruct x; cbn [about_period about_hooks about_members orb];
        (split; [intros E; try discriminate E; rewrite G1 by discriminate; reflexivity|]); (split; [intros E; try discriminate E; apply G2; discriminate|]); noms;
        intros E; try discriminate E; apply G3; eauto.
  - destruct x as [user|x]; cbn [denom_execute] in H1.
    + apply stake_denom_ok in H1. destruct H1 as [d [a [_ [_ [_ [_ H]]]]]]. apply add_stake_ok in H. destruct H as [-> _].
      split; [reflexivity|]. split; [reflexivity|]. noms. intros E; discriminate E.
    + destruct (S _ _ _ _ H1) as (G1 & G2 & G3). destruct x; cbn [about_period about_hooks about_members orb];
        (split; [intros E; try discriminate E; rewrite G1 by discriminate; reflexivity|]); (split; [intros E; try discriminate E; apply G2; discriminate|]); noms;
        intros E; try discriminate E; apply G3; eauto.
  - destruct x as [t h|ts|user|p|h|h]; cbn [nft_execute] in H1; cbn [about_period about_hooks about_members orb].
    + apply receive_nft_ok in H1. destruct H1 as [_ H]. pose proof (resolved_fields s1 o s) as [F1 [F2 [F3 [F4 F5]]]].
      destruct h as [u|u r|]; [| |contradiction].
      * apply stake_nft_ok in H. destruct H as [-> [-> _]]. cbn. rewrite F1, F5. split; [reflexivity|]. split; [reflexivity|]. noms. intros E; discriminate E.
      * destruct H as [_ [H ->]]. unfold add_nft_claim in H. allb. cbn. rewrite F1, F5. split; [reflexivity|]. split; [reflexivity|]. noms. intros E; discriminate E.
    + apply unstake_nft_ok in H1. destruct H1 as [r [stk [_ [_ [-> _]]]]]. split; [reflexivity|]. split; [reflexivity|]. noms. intros E; discriminate E.
    + unfold claim_nft in H1. allb. split; [reflexivity|]. split; [reflexivity|]. noms. intros E; discriminate E.
    + allb. unfold nft_update_period in *. allb. split; [intros E; discriminate E|]. destruct p; (split; [reflexivity|]); noms; auto.
    + allb. unfold add_hook in *. allb. split; [reflexivity|]. split; [intros E; discriminate E|]. noms; auto.
    + allb. unfold remove_hook in *. allb. split; [reflexivity|]. split; [intros E; discriminate E|]. noms; auto.
  - split; [reflexivity|]. destruct x as [l|l|h|h]; cbn [multisig_execute] in H1; cbn [about_period about_hooks about_members orb].
    + apply update_members_ok in H1. destruct H1 as [Hc [_ [w [t [ch [-> _]]]]]]. split; [reflexivity|]. split; [|auto].
      intros y Ey. injection Ey as <-. eexists. split; [reflexivity|]. discriminate.
    + apply set_members_ok in H1. destruct H1 as [Hc [_ [w [-> _]]]]. split; [reflexivity|]. split; [|auto].
      intros y Ey. injection Ey as <-. eexists. split; [reflexivity|]. discriminate.
    + allb. unfold add_hook in *. allb. split; [intros E; discriminate E|]. split; [|auto].
      intros y Ey. injection Ey as <-. eexists. split; reflexivity.
    + allb. unfold remove_hook in *. allb. split; [intros E; discriminate E|]. split; [|auto].
      intros y Ey. injection Ey as <-. eexists. split; reflexivity.
Qed.

Lemma multisig_only o x e s coins m st' outs : member_execute o (MMultisig x) e s coins m = Ok (st', outs) ->
  mo_controller o = Ok s /\ exists x', st' = MMultisig x' /\ m_enterprise x' = m_enterprise x.
Proof.
  intros H. pose proof (settings_by_controller (MMultisig x) (mk_mcall o e s coins m) st' outs H) as (E & _).
  pose proof (member_settings _ _ _ _ _ _ _ _ H) as (_ & _ & K & C). destruct (K _ eq_refl) as (x' & -> & _).
  split; [|exists x'; split; [reflexivity|exact E]]. apply C. destruct m as [?|?|?|mm]; try discriminate H. destruct mm; reflexivity.
Qed.

Lemma enterprise_settings o e s m e' subs c : enterprise_execute o e s m = Ok (e', subs) -> en_finalized e = true -> en_components e = Some c ->
  ((forall u, m <> EnUpdateMetadata u) -> en_metadata e' = en_metadata e) /\
  ((forall v f, m <> EnUpdateConfig v f) -> en_factory e' = en_factory e /\ en_versioning e' = en_versioning e) /\
  ((forall v l, m <> EnUpgradeDao v l) -> en_version e' = en_version e) /\
  (m <> EnRemoveAttestation -> en_components e' = en_components e) /\
  ((forall t, m <> EnSetAttestation t) -> Forall (fun x => sm_reply x = ReplyNever) subs) /\
  s = c_controller c.
Proof.
  intros H HF HC.
  assert (G : forall y, en_controller_only e s = Ok y -> s = c_controller c).
  { intros y Hy. unfold en_controller_only in Hy. rewrite HC in Hy. cbn [ok_or bind] in Hy. apply bind_ok in Hy. destruct Hy as (u & Hu & _).
    apply guard_ok in Hu. apply N.eqb_eq. exact Hu. }
  destruct m; cbn [enterprise_execute] in H.
  - exfalso. apply bind_ok in H. destruct H as (e1 & H1 & _). unfold finalize_instantiation in H1. rewrite HF in H1.
    repeat (apply bind_ok in H1; destruct H1 as (? & ?Hq & H1)). 
    repeat match goal with Q : guard _ _ = Ok _ |- _ => apply guard_ok in Q; cbn in Q; try discriminate Q end.
  - apply bind_ok in H. destruct H as (e1 & H1 & H). injection H as <- <-. unfold update_metadata in H1. apply bind_ok in H1. destruct H1 as (y & Hy & H1).
    injection H1 as <-. repeat split; eauto. intros Q. destruct (Q _ eq_refl).
  - unfold upgrade_dao in H. apply bind_ok in H. destruct H as (y0 & _ & H). apply bind_ok in H. destruct H as (y & Hy & H).
    apply bind_ok in H. destruct H as (mm & _ & H). apply bind_ok in H. destruct H as (vs & _ & H). injection H as <- <-.
    repeat split; eauto. { intros Q. destruct (Q _ _ eq_refl). }
    intros _. apply Forall_forall. intros x Hx. apply in_map_iff in Hx. destruct Hx as (z & <- & _). reflexivity.
  - unfold set_attestation in H. apply bind_ok in H. destruct H as (y & Hy & H). apply bind_ok in H. destruct H as (v & _ & H). injection H as <- <-.
    repeat split; eauto. intros Q. destruct (Q _ eq_refl).
  - apply bind_ok in H. destruct H as (e1 & H1 & H). injection H as <- <-. unfold remove_attestation in H1. apply bind_ok in H1. destruct H1 as (y & Hy & H1).
    injection H1 as <-. repeat split; eauto. intros Q. destruct (Q eq_refl).
  - unfold en_execute_msgs in H. apply bind_ok in H. destruct H as (y & Hy & H). apply bind_ok in H. destruct H as (l & _ & H). injection H as <- <-.
    repeat split; eauto. intros _. apply Forall_forall. intros x Hx. apply in_map_iff in Hx. destruct Hx as (z & <- & _). reflexivity.
  - apply bind_ok in H. destruct H as (e1 & H1 & H). injection H as <- <-. unfold update_en_config in H1. apply bind_ok in H1. destruct H1 as (y & Hy & H1).
    apply bind_ok in H1. destruct H1 as (v1 & _ & H1). apply bind_ok in H1. destruct H1 as (f1 & _ & H1). injection H1 as <-.
    repeat split; eauto; exfalso; eapply H; reflexivity.
Qed.

Ltac still := repeat (split; [reflexivity|]); auto.

Section P.
Context {X : Type}.
Variable Out : outside X.
Variable A : addrs.
Hypothesis HA : NoDup (dao_addrs A).
Local Notation world := (world X).
Local Notation go := (go Out A).
Local Notation oracle := (ctl_oracle_of Out A).
Local Notation ctl_addr := (a_controller A).
Local Notation en_addr := (a_enterprise A).

(** * What stays *)

(** the contracts that keep a setting: controller 0, membership 2, council 3, funds 4, treasury 5, enterprise 6 *)
Definition seat (j : N) (k : setting) : bool :=
  match k with
  | OfMetadata | OfRegistry | OfVersion | OfAttestation => j =? 6
  | OfRules => j =? 0
  | OfCouncil => (j =? 0) || (j =? 3)
  | OfMinimum => j =? 4
  | OfAssets | OfNfts => j =? 5
  | OfPeriod | OfHooks | OfMembers => j =? 2
  end.

Definition steady (k : setting) (w w1 : world) : Prop := unchanged k w w1 /\ (in_charge A k w -> in_charge A k w1).

Lemma unchanged_refl k (w : world) : unchanged k w w.
Proof. destruct k; cbn; auto. destruct (w_member w); eauto. Qed.
Lemma unchanged_trans k (w w1 w2 : world) : unchanged k w w1 -> unchanged k w1 w2 -> unchanged k w w2.
Proof.
  destruct k; cbn; try (intros; intuition congruence). intros H1 H2. destruct (w_member w); auto.
  destruct H1 as (m1 & E1 & E2). rewrite E1 in H2. destruct H2 as (m2 & E3 & E4). exists m2. split; congruence.
Qed.
Lemma steady_refl k w : steady k w w.
Proof. split; [apply unchanged_refl|auto]. Qed.
Lemma steady_trans k w w1 w2 : steady k w w1 -> steady k w1 w2 -> steady k w w2.
Proof. intros (H1 & H2) (H3 & H4). split; [exact (unchanged_trans _ _ _ _ H1 H3)|auto]. Qed.

Lemma steady_parts k w w1 : w_enterprise w1 = w_enterprise w -> ct_config (w_ctl w1) = ct_config (w_ctl w) -> ct_council (w_ctl w1) = ct_council (w_ctl w) ->
  w_member w1 = w_member w -> w_council w1 = w_council w -> w_funds w1 = w_funds w -> w_treasury w1 = w_treasury w -> steady k w w1.
Proof.
  intros E1 E2 E3 E4 E5 E6 E7. split.
  - destruct k; cbn; rewrite ?E1, ?E2, ?E3, ?E4, ?E5, ?E6, ?E7; auto. destruct (w_member w); eauto.
  - destruct k; cbn; rewrite ?E1, ?E2, ?E3, ?E4, ?E5, ?E6, ?E7; auto.
Qed.

Lemma steady_ctl k (w w1 : world) : w_enterprise w1 = w_enterprise w -> (k = OfRules -> ct_config (w_ctl w1) = ct_config (w_ctl w)) ->
  (k = OfCouncil -> ct_council (w_ctl w1) = ct_council (w_ctl w)) ->
  w_member w1 = w_member w -> w_council w1 = w_council w -> w_funds w1 = w_funds w -> w_treasury w1 = w_treasury w -> steady k w w1.
Proof.
  intros E1 E2 E3 E4 E5 E6 E7. split.
  - destruct k; cbn; rewrite ?E1, ?E4, ?E5, ?E6, ?E7; auto. destruct (w_member w); eauto.
  - destruct k; cbn; rewrite ?E1, ?E4, ?E5, ?E6, ?E7; auto.
Qed.

Lemma steady_others j k w w1 : others_same w w1 j -> seat j k = false -> steady k w w1.
Proof.
  intros (H0 & _ & H2 & H3 & H4 & H5 & H6 & _) S. split.
  - destruct k; cbn in S |- *; try apply N.eqb_neq in S; rewrite ?H0, ?H2, ?H3, ?H4, ?H5, ?H6 by (try exact S; intros E; subst j; discriminate S); auto.
    destruct (w_member w); eauto.
  - destruct k; cbn in S |- *; try apply N.eqb_neq in S; rewrite ?H0, ?H2, ?H3, ?H4, ?H5, ?H6 by (try exact S; intros E; subst j; discriminate S); auto.
Qed.

Lemma member_controller w m (c : member_state) : wired A w -> m_enterprise (members_of c) = en_addr ->
  mo_controller (member_oracle_of Out A w c) = Ok m -> m = ctl_addr.
Proof.
  intros HW HE H. cbn [member_oracle_of mo_controller] in H. rewrite HE in H. unfold components_by, enterprise_at in H. rewrite N.eqb_refl in H. cbn [bind] in H.
  destruct (wi_en _ _ HW) as (_ & att & Ec). unfold query_component_contracts in H. rewrite Ec in H. cbn in H. injection H as <-. reflexivity.
Qed.

Lemma handle_steady k n w e s to wm coins w1 subs d : handle Out A n w e s to wm coins = Ok (w1, subs, d) -> to <> ctl_addr -> wired A w -> in_charge A k w ->
  (s = ctl_addr -> asks A k (WasmExecute to wm coins) = false) ->
  steady k w w1 /\ (to = en_addr -> k = OfAttestation -> Forall (fun x => sm_reply x = ReplyNever) subs).
Proof.
  intros H NC HW HI HQ. pose proof (apart A HA) as AP. decompose [and] AP. clear AP.
  apply handle_all in H. destruct H as [(-> & _)|[(-> & HS & _)|[(-> & HS & mm & outs & -> & H)|[(-> & HS & mm & outs & -> & H)|
    [(-> & HS & fm & pays & -> & H)|[(-> & HS & tm & -> & H)|[(-> & HS & em & -> & H)|[(-> & HS & om & -> & H)|(NI & HS)]]]]]]]].
  - contradiction.
  - split; [|congruence]. apply (steady_others 1); [exact HS|]. destruct k; reflexivity.
  - split; [|congruence]. destruct (seat 2 k) eqn:S; [|exact (steady_others 2 k _ _ HS S)].
    assert (EM : m_enterprise (members_of (w_member w)) = en_addr) by (destruct k; try discriminate S; exact HI).
    pose proof (settings_by_controller (w_member w) (mk_mcall _ e s coins mm) _ outs H) as (E1 & _).
    pose proof (member_settings _ _ _ _ _ _ _ _ H) as (M1 & M2 & M3 & M4).
    assert (Q : forall b, (b = true -> about_period mm || about_hooks mm || about_members mm = true) -> (s = ctl_addr -> b = false) -> b = false).
    { intros b Hb Hs. destruct b; [|reflexivity]. apply Hs. exact (member_controller _ _ _ HW EM (M4 (Hb eq_refl))). }
    cbn [mc_oracle mc_env mc_sender mc_coins mc_msg] in *.
    split; [|intros _; destruct k; try discriminate S; cbn; rewrite E1; exact EM].
    destruct k; try discriminate S; cbn [unchanged asks] in *.
    + apply M1, Q; [intros ->; reflexivity|]. intros Es. specialize (HQ Es).
      destruct mm as [[?|[]]|[?|[]]|[]|[]]; try reflexivity; rewrite N.eqb_refl in HQ; discriminate HQ.
    + apply M2, Q; [intros ->; rewrite Bool.orb_true_r; reflexivity|]. intros Es. specialize (HQ Es).
      destruct mm as [[?|[]]|[?|[]]|[]|[]]; try reflexivity; rewrite N.eqb_refl in HQ; discriminate HQ.
    + destruct (w_member w) as [?|?|?|x] eqn:EW; auto. destruct (M3 _ eq_refl) as (x' & Ex & M). exists x'. split; [exact Ex|].
      apply M, Q; [intros ->; rewrite Bool.orb_true_r; reflexivity|]. intros Es. specialize (HQ Es).
      destruct mm as [[?|[]]|[?|[]]|[]|[]]; try reflexivity; rewrite N.eqb_refl in HQ; discriminate HQ.
  - split; [|congruence]. destruct (seat 3 k) eqn:S; [|exact (steady_others 3 k _ _ HS S)].
    destruct k; try discriminate S. destruct HI as (x & Ex & EE). rewrite Ex in H. apply multisig_only in H. destruct H as (Hc & _).
    apply member_controller in Hc; [|exact HW|exact EE]. specialize (HQ Hc). cbn [asks] in HQ. rewrite N.eqb_refl in HQ. discriminate HQ.
  - split; [|congruence]. destruct (seat 4 k) eqn:S; [|exact (steady_others 4 k _ _ HS S)].
    destruct k; try discriminate S. apply funds_settings in H. destruct H as (E1 & E2 & E3). cbn [steady unchanged in_charge] in *.
    split; [|cbn; congruence]. apply E2. intros x ->. rewrite HI in E3. specialize (HQ (E3 (ex_intro _ _ eq_refl))).
    cbn [asks] in HQ. rewrite N.eqb_refl in HQ. discriminate HQ.
  - split; [|congruence]. destruct (seat 5 k) eqn:S; [|exact (steady_others 5 k _ _ HS S)].
    assert (EA : tr_admin (w_treasury w) = ctl_addr) by (destruct k; try discriminate S; exact HI).
    apply treasury_settings in H. rewrite EA in H. destruct H as (T1 & T2 & T3 & T4 & T5 & T6).
    assert (T7 : tr_admin (w_treasury w1) = ctl_addr).
    { apply T2. intros a ->. specialize (HQ (T1 (ex_intro _ _ eq_refl))). destruct k; try discriminate S; cbn [asks] in HQ; rewrite N.eqb_refl in HQ; discriminate HQ. }
    split; [|intros _; destruct k; try discriminate S; exact T7].
    destruct k; try discriminate S; cbn [unchanged].
    + assert (E : lists (w_treasury w1) = lists (w_treasury w)); [|injection E as E1 E2 E3; auto].
      apply T3. intros a b ->. specialize (HQ (T4 (ex_intro _ _ (ex_intro _ _ eq_refl)))). cbn [asks] in HQ. rewrite N.eqb_refl in HQ. discriminate HQ.
    + apply T5. intros a b ->. specialize (HQ (T6 (ex_intro _ _ (ex_intro _ _ eq_refl)))). cbn [asks] in HQ. rewrite N.eqb_refl in HQ. discriminate HQ.
  - destruct (wi_en _ _ HW) as (HF & att & Ec).
    destruct (enterprise_settings _ _ _ _ _ _ _ H HF Ec) as (M1 & M2 & M3 & M4 & M5 & M6). cbn [wiring_of c_controller] in M6. specialize (HQ M6).
    destruct (seat 6 k) eqn:S; [|split; [exact (steady_others 6 k _ _ HS S)|intros _ ->; discriminate S]].
    split; [split; [|destruct k; try discriminate S; auto]|].
    + destruct k; try discriminate S; cbn [unchanged].
      * apply M1. intros u ->. cbn [asks] in HQ. rewrite N.eqb_refl in HQ. discriminate HQ.
      * apply M2. intros u v ->. cbn [asks] in HQ. rewrite N.eqb_refl in HQ. discriminate HQ.
      * apply M3. intros u v ->. cbn [asks] in HQ. rewrite N.eqb_refl in HQ. discriminate HQ.
      * rewrite M4; [reflexivity|]. intros ->. cbn [asks] in HQ. rewrite N.eqb_refl in HQ. discriminate HQ.
    + intros _ ->. apply M5. intros t ->. cbn [asks] in HQ. rewrite N.eqb_refl in HQ. discriminate HQ.
  - split; [|congruence]. apply (steady_others 7); [exact HS|]. destruct k; reflexivity.
  - split; [apply (steady_others 8); [exact HS|]; destruct k; reflexivity|]. intros ->. exfalso. apply NI. unfold dao_addrs. cbn [In]. tauto.
Qed.

(** * The controller *)

Definition silent (k : setting) (subs : list sub_msg) : Prop := Forall (fun x => asks A k (sm_msg x) = false) subs.

Lemma one_silent k m : asks A k m = false -> silent k [plain m].
Proof. intros H. constructor; [exact H|constructor]. Qed.

Lemma action_rules k o s a s' subs att : co_components o = Ok (wiring_of A att) -> ct_enterprise s = en_addr ->
  run_action o s a = Ok (s', subs) -> concerns A k a = false ->
  silent k subs /\ (k = OfRules -> ct_config s' = ct_config s) /\ (k = OfCouncil -> ct_council s' = ct_council s).
Proof.
  intros HC HE H HN. pose proof (apart A HA) as AP. decompose [and] AP. clear AP.
  assert (S2 : forall m target x, to_treasury o m target = Ok x ->
    (target = None -> asks A k (WasmExecute (a_treasury A) (ToTreasury m) []) = false) -> silent k [x]).
  { intros m target x Hx Hk. unfold to_treasury in Hx. rewrite HC in Hx. cbn [bind] in Hx. injection Hx as <-.
    destruct target; apply one_silent; [destruct k; reflexivity|]. exact (Hk eq_refl). }
  destruct a; cbn [run_action] in H.
  - inversion H; subst. split; [|auto]. apply one_silent. destruct k; try reflexivity. discriminate HN.
  - unfold act_gov_config in H. rewrite HC in H. cb. split; [|split; [intros ->; discriminate HN|]].
    + match goal with H : _ = Ok subs |- _ => rename H into HM end.
      destruct (gu_unlocking_period u) eqn:EP; cb; [|constructor]. destruct x; [apply one_silent..|constructor];
        (destruct k; try reflexivity; [cbn; apply N.eqb_neq; auto|cbn in HN; rewrite EP in HN; discriminate HN]).
    + intros _. cbn. reflexivity.
  - unfold act_council in H. rewrite HC in H. cb. split; [|split; [reflexivity|intros ->; discriminate HN]].
    apply one_silent. destruct k; try reflexivity; [discriminate HN|]. cbn. apply N.eqb_neq. auto.
  - cb. split; [|auto]. eapply S2; [eassumption|]. intros ->. destruct k; try reflexivity; discriminate HN.
  - cb. split; [|auto]. eapply S2; [eassumption|]. intros ->. destruct k; try reflexivity; discriminate HN.
  - cb. split; [|auto]. eapply S2; [eassumption|]. intros ->. destruct k; try reflexivity; discriminate HN.
  - cb. split; [|auto]. apply one_silent. destruct k; try reflexivity. discriminate HN.
  - cb. split; [|auto]. match goal with H : parse_msgs _ = Ok _ |- _ => apply parsed in H; rename H into HP end.
    assert (HN' : existsb (asks A k) (given msgs) = false) by (destruct k; exact HN). rewrite HP in HN'. clear -HN'.
    unfold silent. match goal with |- Forall _ (map _ ?l) => induction l as [|m l IH]; [constructor|] end. cbn [existsb] in HN'. apply Bool.orb_false_iff in HN'.
    destruct HN' as (E1 & E2). constructor; [exact E1|exact (IH E2)].
  - cb. split; [|auto]. eapply S2; [eassumption|]. intros ->. destruct k; reflexivity.
  - inversion H; subst. split; [|auto]. apply one_silent. destruct k; reflexivity.
  - rewrite HC in H. cb. split; [|auto]. apply one_silent. destruct k; try reflexivity; try discriminate HN. cbn. apply N.eqb_neq. auto.
  - rewrite HC in H. cb. split; [|auto]. apply one_silent. destruct k; reflexivity.
  - rewrite HC in H. cb. split; [|auto]. apply one_silent. destruct k; try reflexivity. discriminate HN.
  - rewrite HC in H. cb. split; [|auto]. apply one_silent. destruct k; reflexivity.
Qed.

Lemma actions_rules k o att : co_components o = Ok (wiring_of A att) -> forall l s acc s' subs,
  ct_enterprise s = en_addr -> fold_res (run_action_acc o) (s, acc) l = Ok (s', subs) -> existsb (concerns A k) l = false -> silent k acc ->
  silent k subs /\ (k = OfRules -> ct_config s' = ct_config s) /\ (k = OfCouncil -> ct_council s' = ct_council s).
Proof.
  intros HC. induction l as [|a l IH]; intros s acc s' subs HE H HN HS; cbn [fold_res] in H.
  - inversion H; subst. auto.
  - unfold run_action_acc in H at 1. cbn [fst snd] in H. cb.
    match goal with H : run_action _ _ _ = Ok _ |- _ => rename H into HR end.
    pose proof (run_action_frame _ _ _ _ _ HR) as (_ & EE & _). cbn [existsb] in HN. apply Bool.orb_false_iff in HN. destruct HN as (N1 & N2).
    destruct (action_rules k _ _ _ _ _ _ HC HE HR N1) as (S1 & C1 & C2).
    destruct (IH _ _ _ _ (eq_trans EE HE) H N2) as (S2 & D1 & D2); [apply Forall_app; split; assumption|].
    split; [exact S2|]. split; intros E; [rewrite D1, C1 by exact E|rewrite D2, C2 by exact E]; reflexivity.
Qed.

Definition same_rules (w w1 : world) : Prop := ct_config (w_ctl w1) = ct_config (w_ctl w) /\ ct_council (w_ctl w1) = ct_council (w_ctl w).

Lemma turn_rules n w e sender coins m s' subs w' d :
  wired A w -> ctl_execute (oracle w) ctl_addr (w_ctl w) e sender coins m = Ok (s', subs) ->
  go n (set_ctl w s') e (JSubs ctl_addr subs) = Ok (w', d) ->
  (forall id, m <> CExecuteActions id) -> m <> CDeployInitial -> (forall ch, m = CWeightsChanged ch -> sender <> a_council A) ->
  exists n' w1 subs1, (n' <= n)%nat /\ turn Out A w e sender m w1 subs1 /\ same_rules w w1 /\ exists d', go n' w1 e (JSubs ctl_addr subs1) = Ok (w', d').
Proof.
  intros HW HX HG N1 N2 N3. destruct (wired_components Out A _ HW) as (att & HC). apply (WorldProofs.ctl_call A HA _ _ _ _ _ _ _ _ _ HC (wi_of _ _ HW)) in HX.
  destruct HX.
  - apply (go_gov Out A HA) in HG. destruct HG as (n' & x & g & dd & s2 & more & w3 & d3 & -> & HG & HR & H1' & H2').
    apply gov_execute_ok in HG. destruct HG as (_ & id & HG & ->). unfold ctl_reply in HR. cbn in HR. injection HR as <- <-.
    apply go_nil in H1'. destruct H1' as [-> ->]. eexists n', _, rest. split; [lia|]. split; [|split; [|eexists; exact H2']].
    + eapply tu_create; try eassumption; try reflexivity. still.
    + split; reflexivity.
  - apply (go_gov Out A HA) in HG. destruct HG as (n' & x & g & dd & s2 & more & w3 & d3 & -> & HG & HR & H1' & H2').
    apply gov_execute_ok in HG. destruct HG as (_ & HG & ->).
    change (reply_cast_vote (oracle (after_gov A (set_ctl w (with_voting (w_ctl w) (Some (id, k)))) (GCastVote id out sender amount) x g))
      (with_voting (w_ctl w) (Some (id, k))) e = Ok (s2, more)) in HR.
    apply reply_vote_ok in HR. destruct HR as (id' & k' & E & -> & HR). cbn in E. injection E as <- <-.
    apply go_nil in H1'. destruct H1' as [-> ->]. eexists n', _, []. split; [lia|]. rewrite <- and_assoc. split; [|eexists; exact H2'].
    destruct HR as [->|(p0 & t & ea & Hp & _ & _ & _ & ->)].
    + split; [|split; reflexivity]. apply (tu_vote _ _ _ _ _ id p p out amount g); try assumption; try reflexivity; [still|].
      intros i. cbn. destruct (N.eqb_spec id i) as [<-|]; [assumption|reflexivity].
    + cbn in Hp. assert (p0 = p) by congruence. subst p0. split; [|split; reflexivity].
      apply (tu_vote _ _ _ _ _ id p (mk_info (pi_type p) (pi_executed_at p) (Some t) (pi_deposit p) (pi_actions p)) out amount g);
        try assumption; try reflexivity; [still|]. intros i. cbn. rewrite oget_oset. reflexivity.
  - apply (go_gov_plain Out A HA) in HG. destruct HG as (n' & x & g & dd & -> & HG & H2'). apply gov_execute_ok in HG. destruct HG as (_ & HG & _).
    eexists n', _, []. split; [lia|]. split; [|split; [|eexists; exact H2']].
    + eapply tu_council_vote; try eassumption; try reflexivity. still.
    + split; reflexivity.
  - apply (go_gov Out A HA) in HG. destruct HG as (n' & x & g & dd & s2 & more & w3 & d3 & -> & HG & HR & H1' & H2').
    apply gov_execute_ok in HG. destruct HG as (_ & HG & ->).
    set (w2 := after_gov A (set_ctl w (with_executing (w_ctl w) (Some id))) (GEndPoll id total false early) x g) in *.
    assert (HC2 : co_components (oracle w2) = Ok (wiring_of A att)) by exact HC.
    pose proof HR as HR0. unfold ctl_reply in HR0. cbn in HR0. apply resolve_ok in HR0. destruct HR0 as (pl & p0 & Hpl & Hp & Hst & ->).
    cbn in Hp. assert (p0 = p) by congruence. subst p0.
    pose proof (resolution_messages _ _ _ _ _ _ _ id p pl _ HR eq_refl H HC2 Hpl) as (acts & dep & -> & -> & HD & _).
    cbn [wiring_of c_treasury] in HD.
    apply go_nil in H2'. destruct H2' as [-> ->]. eexists n', _, _. split; [lia|]. split; [|split; [|eexists; exact H1']].
    + eapply tu_execute with (pl := pl); try eassumption; try reflexivity; [still| |].
      * unfold ctl_poll in Hpl. rewrite HC2 in Hpl. cbn in Hpl. unfold gov_at in Hpl. rewrite N.eqb_refl in Hpl. cbn [bind] in Hpl.
        apply query_poll_ok. exact Hpl.
      * eapply resolve_safe; [exact Hpl|exact HR].
    + split; reflexivity.
  - apply (go_updates Out A HA) in HG. destruct HG as (n' & g & w1 & L & (S1 & S2 & S5 & S3 & S4) & U & G1 & C1 & H2).
    exists n', w1, [funds_notice A changes]. split; [exact L|]. split; [|split; [|eexists; exact H2]].
    + eapply tu_weights; try eassumption; [split; [exact S1|]; split; [exact S2|]; split; [exact S5|]; split; [exact S3|exact S4]|]. rewrite C1. reflexivity.
    + split; rewrite C1; reflexivity.
  - destruct (N1 _ eq_refl).
  - match goal with Q : _ \/ _ |- _ => destruct Q as [->|(ch & -> & E)] end; [destruct (N2 eq_refl)|destruct (N3 _ eq_refl E)].
Qed.

Lemma hands_silent k to a l : hands_over to a l -> silent k l.
Proof.
  intros H. destruct H; [constructor; [destruct k; reflexivity|constructor]..|].
  induction H; constructor; [|assumption]. subst. destruct k; reflexivity.
Qed.

Lemma turn_silent k w e sender m w1 subs1 : turn Out A w e sender m w1 subs1 -> free_councils w ->
  (forall id, m <> CExecuteActions id) -> m <> CDeployInitial -> (forall ch, m = CWeightsChanged ch -> sender <> a_council A) -> silent k subs1.
Proof.
  intros T F N1 N2 N3. destruct T.
  - eapply Forall_impl; [|exact H4]. intros x (to & t & ->). destruct k; reflexivity.
  - constructor.
  - constructor.
  - apply Forall_app. split; [destruct (p_status pl); repeat constructor; destruct k; reflexivity|].
    destruct (pi_deposit p) as [d|] eqn:ED; [|subst dep; constructor].
    destruct (pi_type p) eqn:ET; [|pose proof (F _ _ H ET); congruence].
    destruct (H7 eq_refl) as (to & _ & HH). exact (hands_silent _ _ _ _ HH).
  - constructor; [destruct k; reflexivity|constructor].
  - destruct (N1 _ eq_refl).
  - destruct H as [->|(ch & -> & E)]; [destruct (N2 eq_refl)|destruct (N3 _ eq_refl E)].
Qed.

Lemma ctl_known k n (w : world) e sender coins m s' subs w' d :
  wired A w -> free_councils w -> ctl_execute (oracle w) ctl_addr (w_ctl w) e sender coins m = Ok (s', subs) ->
  go n (set_ctl w s') e (JSubs ctl_addr subs) = Ok (w', d) ->
  exists n' w1 subs1, (n' <= n)%nat /\ turn Out A w e sender m w1 subs1 /\ (exists d', go n' w1 e (JSubs ctl_addr subs1) = Ok (w', d')) /\
    ((exists id p, m = CExecuteActions id /\ oget (ct_proposals (w_ctl w)) id = Some p /\ existsb (concerns A k) (pi_actions p) = true) \/
     (silent k subs1 /\ (k = OfRules -> ct_config (w_ctl w1) = ct_config (w_ctl w)) /\ (k = OfCouncil -> ct_council (w_ctl w1) = ct_council (w_ctl w)))).
Proof.
  intros HW HF HX HG. destruct (wired_components Out A _ HW) as (att & HC).
  assert (G : (exists id, m = CExecuteActions id) \/ (m = CDeployInitial \/ exists ch, m = CWeightsChanged ch /\ sender = a_council A) \/
    ((forall id, m <> CExecuteActions id) /\ m <> CDeployInitial /\ forall ch, m = CWeightsChanged ch -> sender <> a_council A)).
  { destruct m; try (right; right; repeat split; congruence); [|left; eauto|right; left; left; reflexivity].
    destruct (N.eq_dec sender (a_council A)) as [->|]; [right; left; right; eauto|]. right; right. repeat split; congruence. }
  destruct G as [(id & ->)|[G|(N1 & N2 & N3)]].
  - pose proof HX as HX0. apply (WorldProofs.ctl_call A HA _ _ _ _ _ _ _ _ _ HC (wi_of _ _ HW)) in HX0.
    exists n, (set_ctl w s'), subs. split; [lia|]. remember (CExecuteActions id) as cm eqn:EM. destruct HX0; try discriminate EM;
      try (match goal with Q : creates _ |- _ => rewrite EM in Q; destruct Q end);
      try (match goal with Q : _ \/ _ |- _ => destruct Q as [Q|(? & Q & _)]; rewrite EM in Q; discriminate Q end).
    injection EM as ->. split.
    { eapply tu_actions; try eassumption; try reflexivity. split; [reflexivity|]. split; [reflexivity|]. split; [reflexivity|]. split; [assumption|reflexivity]. }
    split; [eexists; exact HG|]. destruct (existsb (concerns A k) (pi_actions p)) eqn:EX; [left; eauto|right].
    cbn [ctl_execute] in HX. unfold execute_actions in HX. apply bind_ok in HX. destruct HX as (u & _ & HX). apply bind_ok in HX. destruct HX as (p' & Hp' & HX).
    match goal with Q : oget _ id = Some p |- _ => rewrite Q in Hp' end. injection Hp' as <-.
    exact (actions_rules k _ _ HC _ _ _ _ _ (wi_of _ _ HW) HX EX (Forall_nil _)).
  - exists n, (set_ctl w s'), subs. split; [lia|]. pose proof HX as HX0. apply (WorldProofs.ctl_call A HA _ _ _ _ _ _ _ _ _ HC (wi_of _ _ HW)) in HX0.
    assert (Q : silent k subs /\ ct_config s' = ct_config (w_ctl w) /\ ct_council s' = ct_council (w_ctl w) /\ ct_proposals s' = ct_proposals (w_ctl w) /\
      ct_enterprise s' = ct_enterprise (w_ctl w) /\ Forall (fun x => sm_reply x = ReplyNever /\ mild A (sm_msg x) /\ payment ctl_addr (sm_msg x) = []) subs).
    { destruct G as [->|(ch & -> & ->)].
      - cbn [ctl_execute] in HX.
        assert (Q : silent k subs /\ ct_config s' = ct_config (w_ctl w) /\ ct_council s' = ct_council (w_ctl w)).
        { unfold deploy_initial in HX. cb. rewrite HC in HX. destruct (dflt [] (ct_treasuries (w_ctl w))) as [|dd l]; cb; [repeat split; constructor|].
          split; [|split; reflexivity]. constructor; [destruct k; reflexivity|]. apply Forall_forall. intros y Hy. apply in_map_iff in Hy.
          destruct Hy as (z & <- & _). destruct k; reflexivity. }
        destruct Q as (Q1 & Q2 & Q3). split; [exact Q1|]. split; [exact Q2|]. split; [exact Q3|].
        remember CDeployInitial as cm eqn:EM. destruct HX0; try discriminate EM;
          try (match goal with Q : creates _ |- _ => rewrite EM in Q; destruct Q end). auto.
      - cbn [ctl_execute] in HX. unfold weights_changed in HX. rewrite HC in HX. cbn [bind wiring_of c_council] in HX. rewrite N.eqb_refl in HX. injection HX as <- <-.
        repeat split; constructor. }
    destruct Q as (Q1 & Q2 & Q3 & Q4 & Q5 & Q6). split.
    { apply tu_other; try assumption; try reflexivity. split; [reflexivity|]. split; [reflexivity|]. split; [reflexivity|]. split; [assumption|reflexivity]. }
    split; [eexists; exact HG|]. right. split; [exact Q1|]. split; intros _; assumption.
  - destruct (turn_rules _ _ _ _ _ _ _ _ _ _ HW HX HG N1 N2 N3) as (n' & w1 & subs1 & L & T & (R1 & R2) & G2). exists n', w1, subs1.
    split; [exact L|]. split; [exact T|]. split; [exact G2|]. right. split; [exact (turn_silent _ _ _ _ _ _ _ T HF N1 N2 N3)|]. auto.
Qed.

(** * Everything delivered *)

Definition touched_kept k (w w1 w' : world) : Prop := touched A k w w1 -> kept w1 w' -> (exists l, w_log w' = l ++ w_log w1) -> touched A k w w'.
Lemma touched_after k w w1 w' : touched_kept k w w1 w'.
Proof.
  intros (id & p & a & (l & s & coins & EL & HI) & Hp & Ha & Hk) (_ & _ & K) (l' & EL'). destruct (K _ _ Hp) as (p' & Hp' & E & _).
  exists id, p', a. split; [|split; [exact Hp'|split; [injection E as _ _ E; rewrite E; exact Ha|exact Hk]]].
  exists (l' ++ l), s, coins. split; [rewrite EL', EL, app_assoc; reflexivity|]. apply in_or_app. right. exact HI.
Qed.
Lemma touched_before k (w w1 w' : world) : touched A k w1 w' -> (exists l, w_log w1 = l ++ w_log w) -> touched A k w w'.
Proof.
  intros (id & p & a & (l & s & coins & EL & HI) & Hp & Ha & Hk) (l' & EL'). exists id, p, a. split; [|auto].
  exists (l ++ l'), s, coins. split; [rewrite EL, EL', app_assoc; reflexivity|]. apply in_or_app. left. exact HI.
Qed.

Definition settled (k : setting) (w w' : world) : Prop := (unchanged k w w' /\ in_charge A k w') \/ touched A k w w'.

Lemma settled_after k w w1 w' : steady k w w1 -> (exists l, w_log w1 = l ++ w_log w) -> settled k w1 w' -> settled k w w'.
Proof.
  intros (S1 & S2) L [(U & C)|T]; [left; split; [exact (unchanged_trans _ _ _ _ S1 U)|exact C]|right; exact (touched_before _ _ _ _ T L)].
Qed.

Definition quiet_job (k : setting) (j : job) : Prop :=
  match j with
  | JMsg s m => s = ctl_addr -> asks A k m = false
  | JSubs self subs => (self = ctl_addr -> fine subs /\ silent k subs) /\ (self = en_addr -> k = OfAttestation -> Forall (fun x => sm_reply x = ReplyNever) subs)
  end.
Lemma en_not_ctl : en_addr <> ctl_addr.
Proof. pose proof (apart A HA) as H. decompose [and] H. congruence. Qed.

Lemma fine_job k j : quiet_job k j -> match j with JSubs self subs => self = ctl_addr -> fine subs | JMsg _ _ => True end.
Proof. destruct j; [intros; exact I|]. intros (H & _) E. exact (proj1 (H E)). Qed.

Lemma free_kept (w w1 : world) : ct_proposals (w_ctl w1) = ct_proposals (w_ctl w) -> free_councils w -> free_councils w1.
Proof. unfold free_councils. intros ->. auto. Qed.

Lemma go_free n : forall (w : world) e j w' d, go n w e j = Ok (w', d) -> wired A w -> free_councils w ->
  match j with JSubs self subs => self = ctl_addr -> fine subs | JMsg _ _ => True end -> size w' < M64 -> free_councils w'.
Proof.
  induction n as [n IH] using lt_wf_ind. intros w e j w' d H HW HF HJ HS.
  destruct j as [s m|self [|x rest]].
  - destruct n as [|n]; [discriminate|].
    apply go_msg in H. destruct H as [(to & wm & coins & x & w1 & subs & d' & -> & _ & Hh & Hg)|(NE & Ho)].
    + destruct (start_wired A w s (WasmExecute to wm coins) x HW) as (W0 & _ & _).
      assert (F0 : free_councils (set_ext (note w s (WasmExecute to wm coins)) x)) by exact HF.
      set (w0 := set_ext (note w s (WasmExecute to wm coins)) x) in *.
      apply handle_cases in Hh. destruct Hh as [(-> & cm & s' & -> & He & -> & _)|[(-> & gm & g & -> & _ & -> & ->)|[(-> & mm & s' & outs & -> & _ & -> & -> & _)|(N1 & _ & _ & Q)]]].
      * destruct (ctl_turn Out A HA _ _ _ _ _ _ _ _ _ _ W0 He Hg) as (n' & w1 & subs1 & L & T & (d2 & G)).
        pose proof (go_size _ _ _ _ _ _ _ _ G) as GS1. pose proof T as TW. apply turn_wired in TW; [|assumption|lia]. destruct TW as (W1 & K1 & F1).
        exact (IH n' ltac:(lia) _ _ _ _ _ G W1 (turn_free _ _ _ _ _ _ _ _ T F0) (fun _ => F1) HS).
      * apply go_nil in Hg. destruct Hg as [-> _]. exact F0.
      * refine (IH n ltac:(lia) _ _ _ _ _ Hg (proj1 (member_wired A w0 s' W0)) _ _ HS); [exact F0|]. intros E. destruct (member_not_ctl A HA E).
      * refine (IH n ltac:(lia) _ _ _ _ _ Hg (proj1 (quiet_wired A _ _ Q W0)) _ _ HS); [|intros E; contradiction].
        assert (EC : w_ctl w1 = w_ctl w0) by apply Q. unfold free_councils. rewrite EC. exact F0.
    + apply other_quiet in Ho. assert (EC : w_ctl w' = w_ctl w) by apply Ho. unfold free_councils. rewrite EC. exact HF.
  - apply go_nil in H. destruct H as [-> _]. exact HF.
  - apply go_cons in H. destruct H as (n' & -> & H).
    assert (JR : self = ctl_addr -> fine rest) by (intros E; exact (Forall_inv_tail (HJ E))).
    assert (HR : forall wa id r wb more wc dc wd dd, sm_reply x = ReplySuccess id \/ sm_reply x = ReplyAlways id ->
      wired A wa -> free_councils wa -> on_reply Out A wa e self id r = Ok (wb, more) -> go n' wb e (JSubs self more) = Ok (wc, dc) ->
      go n' wc e (JSubs self rest) = Ok (wd, dd) -> size wd < M64 -> free_councils wd).
    { intros wa id r wb more wc dc wd dd HD Wa Fa Hr Hg1 Hg2 Sd. pose proof (go_size _ _ _ _ _ _ _ _ Hg2) as S2.
      apply reply_cases in Hr. destruct Hr as [(-> & s' & Hr & ->)|(NC & Q)].
      - assert (id = 3) as ->. { pose proof (Forall_inv (HJ eq_refl)) as Q'. cbn beta in Q'. destruct HD as [E|E], Q' as [F|F]; congruence. }
        apply reply_3 in Hr. destruct Hr as [-> ->]. apply go_nil in Hg1. destruct Hg1 as [-> _].
        destruct (scene_wired A wa (w_ctl wa) (conj eq_refl eq_refl) Wa) as (Wb & _).
        exact (IH n' ltac:(lia) _ _ _ _ _ Hg2 Wb Fa JR Sd).
      - assert (EC : w_ctl wb = w_ctl wa) by apply Q. assert (Fb : free_councils wb) by (unfold free_councils; rewrite EC; exact Fa).
        destruct (quiet_wired A _ _ Q Wa) as (Wb & _). assert (JM : self = ctl_addr -> fine more) by (intros E; contradiction).
        pose proof (layer1 Out A HA _ _ _ _ _ _ Hg1 Wb JM ltac:(lia)) as (Wc & _).
        exact (IH n' ltac:(lia) _ _ _ _ _ Hg2 Wc (IH n' ltac:(lia) _ _ _ _ _ Hg1 Wb Fb JM ltac:(lia)) JR Sd). }
    destruct H as [(w1 & d1 & H1 & [(_ & H2)|(id & w2 & more & w3 & d3 & E & H2 & H3 & H4)])|(id & w2 & more & w3 & d3 & _ & E & H2 & H3 & H4)].
    + pose proof (go_size _ _ _ _ _ _ _ _ H2). pose proof (layer1 Out A HA _ _ _ _ _ _ H1 HW I ltac:(lia)) as (W1 & _).
      exact (IH n' ltac:(lia) _ _ _ _ _ H2 W1 (IH n' ltac:(lia) _ _ _ _ _ H1 HW HF I ltac:(lia)) JR HS).
    + assert (Z1 : size w1 < M64).
      { pose proof (go_size _ _ _ _ _ _ _ _ H3) as G3. pose proof (go_size _ _ _ _ _ _ _ _ H4) as G4. apply reply_log in H2.
        assert (size w2 = size w1) by (unfold size; rewrite H2; reflexivity). lia. }
      pose proof (layer1 Out A HA _ _ _ _ _ _ H1 HW I Z1) as (W1 & _).
      exact (HR _ _ _ _ _ _ _ _ _ E W1 (IH n' ltac:(lia) _ _ _ _ _ H1 HW HF I Z1) H2 H3 H4 HS).
    + exact (HR _ _ _ _ _ _ _ _ _ (or_intror E) HW HF H2 H3 H4 HS).
Qed.

Lemma turn_parts w e s m w1 subs1 : turn Out A w e s m w1 subs1 ->
  w_enterprise w1 = w_enterprise w /\ w_funds w1 = w_funds w /\ w_treasury w1 = w_treasury w /\ w_member w1 = w_member w /\ w_council w1 = w_council w.
Proof.
  assert (Q : forall gl, stepped A w w1 gl ->
    w_enterprise w1 = w_enterprise w /\ w_funds w1 = w_funds w /\ w_treasury w1 = w_treasury w /\ w_member w1 = w_member w /\ w_council w1 = w_council w).
  { intros gl (E & E1 & E2 & _). injection E as E3 E4 E5 _. auto. }
  intros T. destruct T; eapply Q; eassumption.
Qed.

Lemma go_settled k n : forall (w : world) e j w' d, go n w e j = Ok (w', d) -> wired A w -> free_councils w -> in_charge A k w -> quiet_job k j -> size w' < M64 ->
  settled k w w'.
Proof.
  induction n as [n IH] using lt_wf_ind. intros w e j w' d H HW HF HI HJ HS.
  pose proof (layer1 Out A HA _ _ _ _ _ _ H HW (fine_job _ _ HJ) HS) as (LW & LK).
  destruct j as [s m|self [|x rest]].
  - destruct n as [|n]; [discriminate|].
    apply go_msg in H. destruct H as [(to & wm & coins & x & w1 & subs & d' & -> & _ & Hh & Hg)|(NE & Ho)].
    + destruct (start_wired A w s (WasmExecute to wm coins) x HW) as (W0 & K0 & S0).
      assert (LG : w_log (set_ext (note w s (WasmExecute to wm coins)) x) = (s, WasmExecute to wm coins) :: w_log w) by reflexivity.
      assert (F0 : free_councils (set_ext (note w s (WasmExecute to wm coins)) x)) by exact HF.
      assert (ST0 : steady k w (set_ext (note w s (WasmExecute to wm coins)) x)) by (apply steady_parts; reflexivity).
      assert (C0 : w_ctl (set_ext (note w s (WasmExecute to wm coins)) x) = w_ctl w) by reflexivity.
      set (w0 := set_ext (note w s (WasmExecute to wm coins)) x) in *.
      pose proof (proj2 ST0 HI) as I0.
      pose proof (go_size _ _ _ _ _ _ _ _ Hg) as GS. pose proof (handle_log _ _ _ _ _ _ _ _ _ _ _ _ Hh) as HL.
      destruct (go_log _ _ _ _ _ _ _ _ Hg) as (lg & Elg). rewrite HL in Elg.
      pose proof Hh as Hh0.
      apply handle_cases in Hh. destruct Hh as [(-> & cm & s' & -> & He & -> & _)|HH].
      * destruct (ctl_known k _ _ _ _ _ _ _ _ _ _ W0 F0 He Hg) as (n' & w1 & subs1 & L & T & (d2 & G) & HM).
        pose proof (go_size _ _ _ _ _ _ _ _ G) as GS1.
        pose proof T as TW. apply turn_wired in TW; [|assumption|lia]. destruct TW as (W1 & K1 & F1).
        pose proof (turn_free _ _ _ _ _ _ _ _ T F0) as FC1. pose proof (turn_dull Out A HA _ _ _ _ _ _ T) as (_ & l & EL & _).
        destruct HM as [(id & p & -> & Hp & EX)|(HQ & R1 & R2)].
        -- right. apply existsb_exists in EX. destruct EX as (a & Ha & Hk). rewrite C0 in Hp. destruct LK as (_ & _ & K). destruct (K _ _ Hp) as (p' & Hp' & E & _).
           exists id, p', a. split; [|split; [exact Hp'|split; [injection E as _ _ E; rewrite E; exact Ha|exact Hk]]].
           exists (lg ++ [(s, WasmExecute ctl_addr (ToController (CExecuteActions id)) coins)]), s, coins. split.
           { cbn [w_log set_ctl] in Elg. rewrite Elg, LG, <- app_assoc. reflexivity. }
           apply in_or_app. right. left. reflexivity.
        -- assert (PS : w_enterprise w1 = w_enterprise w0 /\ w_funds w1 = w_funds w0 /\ w_treasury w1 = w_treasury w0 /\ w_member w1 = w_member w0 /\ w_council w1 = w_council w0).
           { exact (turn_parts _ _ _ _ _ _ T). }
           assert (SD1 : steady k w0 w1).
           { destruct PS as (E1 & E2 & E3 & E4 & E5). exact (steady_ctl k _ _ E1 R1 R2 E4 E5 E2 E3). }
           assert (JO : quiet_job k (JSubs ctl_addr subs1)).
           { split; [auto|]. intros E. destruct (en_not_ctl (eq_sym E)). }
           pose proof (IH n' ltac:(lia) _ _ _ _ _ G W1 FC1 (proj2 SD1 I0) JO HS) as B2.
           apply (settled_after _ _ _ _ (steady_trans _ _ _ _ ST0 SD1)); [|exact B2]. rewrite EL, LG. exists (l ++ [(s, WasmExecute ctl_addr (ToController cm) coins)]).
           rewrite <- app_assoc. reflexivity.
      * assert (NC : to <> ctl_addr).
        { destruct HH as [(-> & _)|[(-> & _)|(N1 & _)]]; [apply (gov_not_ctl A HA)|apply (member_not_ctl A HA)|exact N1]. }
        destruct (handle_steady k _ _ _ _ _ _ _ _ _ _ Hh0 NC W0 I0 HJ) as (SD1 & RN).
        assert (EC : w_ctl w1 = w_ctl w0) by (destruct HH as [(_ & gm & g & _ & _ & -> & _)|[(_ & mm & s' & outs & _ & _ & -> & _)|(_ & _ & _ & Q)]]; [reflexivity|reflexivity|apply Q]).
        assert (L1 : exists l, w_log w1 = l ++ w_log w) by (exists [(s, WasmExecute to wm coins)]; rewrite HL, LG; reflexivity).
        apply (settled_after _ _ _ _ (steady_trans _ _ _ _ ST0 SD1) L1).
        assert (F1 : free_councils w1) by (unfold free_councils; rewrite EC; exact F0).
        assert (JO : quiet_job k (JSubs to subs)) by (split; [intros E; contradiction|exact RN]).
        destruct HH as [(-> & gm & g & -> & He & -> & ->)|HH].
        -- apply go_nil in Hg. destruct Hg as [-> _]. left. split; [apply unchanged_refl|exact (proj2 SD1 I0)].
        -- assert (W1 : wired A w1).
           { destruct HH as [(-> & mm & s' & outs & -> & He & -> & -> & _)|(N1 & N2 & N3 & Q)]; [apply (member_wired A w0 s' W0)|apply (quiet_wired A _ _ Q W0)]. }
           exact (IH n ltac:(lia) _ _ _ _ _ Hg W1 F1 (proj2 SD1 I0) JO HS).
    + pose proof (other_all Out A _ _ _ _ _ _ Ho) as OA. left.
      assert (S : steady k w w').
      { apply (steady_trans _ _ (note w s m)); [apply steady_parts; reflexivity|]. apply (steady_others 8); [exact OA|]. destruct k; reflexivity. }
      split; [apply S|exact (proj2 S HI)].
  - apply go_nil in H. destruct H as [-> _]. left. split; [apply unchanged_refl|exact HI].
  - apply go_cons in H. destruct H as (n' & -> & H). destruct HJ as (J1 & J2).
    assert (JR : quiet_job k (JSubs self rest)).
    { split; intros E; [destruct (J1 E) as (Q1 & Q2); split; [exact (Forall_inv_tail Q1)|exact (Forall_inv_tail Q2)]|]. intros Ek. exact (Forall_inv_tail (J2 E Ek)). }
    assert (JM : quiet_job k (JMsg self (sm_msg x))).
    { intros E. destruct (J1 E) as (_ & Q). exact (Forall_inv Q). }
    assert (SQ : forall wa wb wc, settled k wa wb -> kept wb wc -> (exists l, w_log wc = l ++ w_log wb) -> (exists l, w_log wb = l ++ w_log wa) ->
      (in_charge A k wb -> settled k wb wc) -> settled k wa wc).
    { intros wa wb wc [(U & C)|T] K L1 L2 G; [|right; exact (touched_after _ _ _ _ T K L1)].
      apply (settled_after k wa wb wc); [split; [exact U|intros _; exact C]|exact L2|exact (G C)]. }
    assert (HR : forall wa id r wb more wc dc wd dd, sm_reply x = ReplySuccess id \/ sm_reply x = ReplyAlways id ->
      wired A wa -> free_councils wa -> on_reply Out A wa e self id r = Ok (wb, more) -> go n' wb e (JSubs self more) = Ok (wc, dc) ->
      go n' wc e (JSubs self rest) = Ok (wd, dd) -> size wd < M64 -> (in_charge A k wa -> settled k wa wd) /\ kept wa wd /\ exists l, w_log wd = l ++ w_log wa).
    { intros wa id r wb more wc dc wd dd HD Wa Fa Hr Hg1 Hg2 Sd. pose proof (go_size _ _ _ _ _ _ _ _ Hg2) as S2.
      pose proof (reply_log _ _ _ _ _ _ _ _ _ Hr) as RL. destruct (go_log _ _ _ _ _ _ _ _ Hg1) as (l1 & L1). destruct (go_log _ _ _ _ _ _ _ _ Hg2) as (l2 & L2).
      assert (P : steady k wa wb /\ wired A wb /\ free_councils wb /\ kept wa wb /\ quiet_job k (JSubs self more)).
      { pose proof Hr as Hr0. apply reply_cases in Hr. destruct Hr as [(-> & s' & Hr & ->)|(NC & Q)].
        - assert (id = 3) as ->. { destruct (J1 eq_refl) as (Q & _). pose proof (Forall_inv Q) as Q'. cbn beta in Q'. destruct HD as [E|E], Q' as [F|F]; congruence. }
          apply reply_3 in Hr. destruct Hr as [-> ->]. destruct (scene_wired A wa (w_ctl wa) (conj eq_refl eq_refl) Wa) as (Wb & Kb).
          split; [apply steady_parts; reflexivity|]. split; [exact Wb|]. split; [exact Fa|]. split; [exact Kb|]. split; intros; [split|]; constructor.
        - destruct (quiet_wired A _ _ Q Wa) as (Wb & Kb). assert (EC : w_ctl wb = w_ctl wa) by apply Q.
          split; [|split; [exact Wb|split; [unfold free_councils; rewrite EC; exact Fa|split; [exact Kb|]]]].
          + destruct (N.eq_dec self en_addr) as [->|NE].
            * unfold on_reply in Hr0. destruct (N.eqb_spec en_addr ctl_addr) as [E|_]; [contradiction|]. rewrite N.eqb_refl in Hr0.
              apply bind_ok in Hr0. destruct Hr0 as ([en' m'] & Hen & Hr0). injection Hr0 as <- <-.
              assert (EN : forall j, j <> OfAttestation -> steady j wa (set_enterprise wa en')).
              { unfold enterprise_reply in Hen. destruct (id =? 1); [|discriminate]. destruct r as [[a|]|]; try discriminate. apply bind_ok in Hen. destruct Hen as (a' & _ & Hen).
                apply bind_ok in Hen. destruct Hen as (c & _ & Hen). injection Hen as <- _. intros j Nj. split; [|destruct j; auto].
                destruct j; cbn; auto; [contradiction|]. destruct (w_member wa); eauto. }
              assert (Nk : k <> OfAttestation).
              { intros Ek. pose proof (Forall_inv (J2 eq_refl Ek)) as Q'. cbn beta in Q'. destruct HD; congruence. }
              exact (EN k Nk).
            * apply (steady_others 8); [|destruct k; reflexivity]. unfold on_reply in Hr0. destruct (N.eqb_spec self ctl_addr) as [E|_]; [contradiction|].
              destruct (N.eqb_spec self en_addr) as [E|_]; [contradiction|]. destruct (self =? a_treasury A).
              { apply bind_ok in Hr0. destruct Hr0 as (t' & Ht & Hr0). unfold treasury_reply in Ht. destruct (id =? 6); [|discriminate]. injection Ht as <-.
                injection Hr0 as <- <-. repeat split; intros; try reflexivity; try congruence. }
              destruct (is_dao A self); [discriminate|]. apply bind_ok in Hr0. destruct Hr0 as ([xx mm] & _ & Hr0). injection Hr0 as <- <-.
              repeat split; intros; try reflexivity; congruence.
          + split; [intros E; contradiction|]. intros E Ek. pose proof (Forall_inv (J2 E Ek)) as Q'. cbn beta in Q'. destruct HD; congruence. }
      destruct P as (Sb & Wb & Fb & Kb & Jb).
      pose proof (layer1 Out A HA _ _ _ _ _ _ Hg1 Wb (fine_job _ _ Jb) ltac:(lia)) as (Wc & Kc).
      pose proof (layer1 Out A HA _ _ _ _ _ _ Hg2 Wc (fine_job _ _ JR) Sd) as (Wd & Kd).
      pose proof (go_free _ _ _ _ _ _ Hg1 Wb Fb (fine_job _ _ Jb) ltac:(lia)) as Fc.
      split; [|split; [exact (kept_trans _ _ _ Kb (kept_trans _ _ _ Kc Kd))|exists (l2 ++ l1); rewrite L2, L1, RL, app_assoc; reflexivity]].
      intros Ia. pose proof (IH n' ltac:(lia) _ _ _ _ _ Hg1 Wb Fb (proj2 Sb Ia) Jb ltac:(lia)) as Tc.
      assert (Tac : settled k wa wc) by (apply (settled_after _ _ _ _ Sb); [exists []; exact RL|exact Tc]).
      apply (SQ _ _ _ Tac Kd); [eauto|exists l1; rewrite L1, RL; reflexivity|]. intros Ic.
      exact (IH n' ltac:(lia) _ _ _ _ _ Hg2 Wc Fc Ic JR Sd). }
    destruct H as [(w1 & d1 & H1 & [(_ & H2)|(id & w2 & more & w3 & d3 & E & H2 & H3 & H4)])|(id & w2 & more & w3 & d3 & _ & E & H2 & H3 & H4)].
    + pose proof (go_size _ _ _ _ _ _ _ _ H2). destruct (go_log _ _ _ _ _ _ _ _ H1) as (l1 & L1). destruct (go_log _ _ _ _ _ _ _ _ H2) as (l2 & L2).
      pose proof (layer1 Out A HA _ _ _ _ _ _ H1 HW I ltac:(lia)) as (W1 & K1).
      pose proof (layer1 Out A HA _ _ _ _ _ _ H2 W1 (fine_job _ _ JR) HS) as (_ & K2).
      pose proof (go_free _ _ _ _ _ _ H1 HW HF I ltac:(lia)) as F1.
      apply (SQ _ _ _ (IH n' ltac:(lia) _ _ _ _ _ H1 HW HF HI JM ltac:(lia)) K2); [eauto|eauto|]. intros I1.
      exact (IH n' ltac:(lia) _ _ _ _ _ H2 W1 F1 I1 JR HS).
    + destruct (go_log _ _ _ _ _ _ _ _ H1) as (l1 & L1).
      assert (Z1 : size w1 < M64).
      { pose proof (go_size _ _ _ _ _ _ _ _ H3) as G3. pose proof (go_size _ _ _ _ _ _ _ _ H4) as G4. pose proof (reply_log _ _ _ _ _ _ _ _ _ H2) as RL.
        assert (size w2 = size w1) by (unfold size; rewrite RL; reflexivity). lia. }
      pose proof (layer1 Out A HA _ _ _ _ _ _ H1 HW I Z1) as (W1 & K1).
      pose proof (go_free _ _ _ _ _ _ H1 HW HF I Z1) as F1.
      destruct (HR _ _ _ _ _ _ _ _ _ E W1 F1 H2 H3 H4 HS) as (B & K2 & L2).
      apply (SQ _ _ _ (IH n' ltac:(lia) _ _ _ _ _ H1 HW HF HI JM Z1) K2 L2); [eauto|exact B].
    + apply (HR _ _ _ _ _ _ _ _ _ (or_intror E) HW HF H2 H3 H4 HS). exact HI.
Qed.

(** * Histories *)

Lemma run_log ts : forall w : world, exists l, w_log (world_run Out A w ts) = l ++ w_log w.
Proof.
  induction ts as [|t ts IH]; intros w; [exists []; reflexivity|].
  change (world_run Out A w (t :: ts)) with (world_run Out A (world_step Out A w t) ts). destruct (IH (world_step Out A w t)) as (l & E).
  destruct (WorldRun.step_cases Out A w t) as [E1|(d & _ & H)]; [rewrite E1 in *; eauto|]. destruct (go_log _ _ _ _ _ _ _ _ H) as (l1 & E1).
  exists (l ++ l1). rewrite E, E1, app_assoc. reflexivity.
Qed.

Lemma run_kept ts : forall w : world, wired A w -> free_councils w -> size (world_run Out A w ts) < M64 ->
  wired A (world_run Out A w ts) /\ free_councils (world_run Out A w ts) /\ kept w (world_run Out A w ts).
Proof.
  induction ts as [|t ts IH]; intros w HW HF HS; [split; [exact HW|split; [exact HF|apply kept_refl]]|].
  change (world_run Out A w (t :: ts)) with (world_run Out A (world_step Out A w t) ts) in *. pose proof (run_size Out A ts (world_step Out A w t)) as S1.
  destruct (WorldRun.step_cases Out A w t) as [E|(d & Hd & H)]; [rewrite E in *; apply IH; assumption|].
  pose proof (layer1 Out A HA _ _ _ _ _ _ H HW I ltac:(lia)) as (W1 & K1). pose proof (go_free _ _ _ _ _ _ H HW HF I ltac:(lia)) as F1.
  destruct (IH _ W1 F1 HS) as (W2 & F2 & K2). split; [exact W2|]. split; [exact F2|]. exact (kept_trans _ _ _ K1 K2).
Qed.

Lemma run_settled k ts : forall w : world, wired A w -> free_councils w -> in_charge A k w -> size (world_run Out A w ts) < M64 ->
  settled k w (world_run Out A w ts).
Proof.
  induction ts as [|t ts IH]; intros w HW HF HI HS; [left; split; [apply unchanged_refl|exact HI]|].
  change (world_run Out A w (t :: ts)) with (world_run Out A (world_step Out A w t) ts) in *. pose proof (run_size Out A ts (world_step Out A w t)) as S1.
  destruct (WorldRun.step_cases Out A w t) as [E|(d & Hd & H)]; [rewrite E in *; apply IH; assumption|].
  pose proof (layer1 Out A HA _ _ _ _ _ _ H HW I ltac:(lia)) as (W1 & K1). pose proof (go_free _ _ _ _ _ _ H HW HF I ltac:(lia)) as F1.
  destruct (run_kept ts _ W1 F1 HS) as (_ & _ & K2).
  assert (JO : quiet_job k (JMsg (tx_signer t) (tx_msg t))).
  { intros E. exfalso. rewrite E in Hd. revert Hd. unfold is_dao, dao_addrs. cbn. rewrite N.eqb_refl, ?Bool.orb_true_r. discriminate. }
  destruct (go_settled k _ _ _ _ _ _ H HW HF HI JO ltac:(lia)) as [(U & C)|T].
  - apply (settled_after k w (world_step Out A w t)); [split; auto|exact (go_log _ _ _ _ _ _ _ _ H)|]. exact (IH _ W1 F1 C HS).
  - right. apply (touched_after _ _ _ _ T K2). apply run_log.
Qed.

Lemma new_free (w : world) : new_dao A w -> free_councils w.
Proof. intros N id p Hp. rewrite (proj2 (new_records A w N)), oget_empty in Hp. discriminate. Qed.

End P.
