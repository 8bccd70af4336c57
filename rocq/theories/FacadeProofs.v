(** Lemmas about the facade: how it finds a DAO, its adapters and its queries. *)
From Verif Require Import Base OMap OMapLemmas Assets PollModel PollSpec PollProofs FundsModel MemberModel MemberSpec MemberProofs MemberFacts Msgs
  ControllerModel ControllerSpec ControllerProofs ControllerFacts TreasuryModel TreasurySpec TreasuryProofs TreasuryFacts EnterpriseModel EnterpriseSpec EnterpriseFacts OutpostsModel
  WorldModel WorldSpec WorldProofs WorldRun LiftSpec LiftFacts LiveResults FacadeModel FacadeV1Model FacadeSpec.

(** * Which facade *)

Lemma execute_admin gas t s m t' out : treasury_execute gas t s m = Ok (t', out) -> (forall a, m <> TrSetAdmin a) -> tr_admin t' = tr_admin t.
Proof.
  intros H Hm. destruct m.
  - destruct (Hm _ eq_refl).
  - apply update_assets_ok in H. tauto.
  - apply update_nfts_ok in H. tauto.
  - apply spend_exact in H. destruct H as (_ & -> & _). reflexivity.
  - apply distribute_exact in H. destruct H as (_ & -> & _). reflexivity.
  - apply execute_exact in H. destruct H as (_ & -> & _). reflexivity.
  - apply migrate_exact in H. tauto.
Qed.

Lemma run_admin cs : forall t, (forall c a, In c cs -> tc_msg c <> TrSetAdmin a) -> tr_admin (fst (treasury_run t cs)) = tr_admin t.
Proof.
  induction cs as [|c cs IH]; intros t H; cbn [treasury_run]; [reflexivity|].
  destruct (treasury_step t c) as [t1 m1] eqn:E1. specialize (IH t1). destruct (treasury_run t1 cs) as [t2 m2]. cbn [fst] in *.
  rewrite IH by (intros c' a Hc; apply H; right; exact Hc). unfold treasury_step in E1.
  destruct (treasury_execute (tc_gas c) t (tc_sender c) (tc_msg c)) as [[t' m']|] eqn:E; inversion E1; subst; [|reflexivity].
  apply (execute_admin _ _ _ _ _ _ E). intros a. apply H. left. reflexivity.
Qed.

Lemma received_in {X} a (w : world X) s m coins : In (s, m, coins) (received a w) -> In (s, WasmExecute a m coins) (w_log w).
Proof.
  unfold received. intros H. apply in_flat_map in H. destruct H as ([s' m'] & H1 & H2). apply in_rev in H1. unfold seen_by in H2.
  cbn [fst snd] in H2. destruct m'; try destruct H2. destruct (N.eqb_spec contract a) as [->|]; [|destruct H2].
  destruct H2 as [H2|[]]. inversion H2; subst. exact H1.
Qed.

Lemma admin_stays X (Out : outside X) A w0 ts w : new_dao A w0 -> w = world_run Out A w0 ts -> treasury_kept A w ->
  tr_admin (w_treasury w) = tr_admin (w_treasury w0).
Proof.
  intros HN HW HK. destruct (treasury_history X Out A w0 ts w HN HW) as (cs & H1 & H2). rewrite H1. apply run_admin.
  intros c a Hc E. assert (H : In (tc_sender c, ToTreasury (TrSetAdmin a)) (map ignoring_coins (received (a_treasury A) w))).
  { rewrite <- H2. apply in_map_iff. exists c. rewrite E. auto. }
  apply in_map_iff in H. destruct H as (((s & m) & coins) & Hs & H). cbn in Hs. inversion Hs; subst.
  apply (HK (tc_sender c) a coins). apply received_in. exact H.
Qed.

Lemma dao_is_dao A a : In a (dao_addrs A) -> is_dao A a = true.
Proof. intros H. unfold is_dao. apply existsb_exists. exists a. split; [exact H|apply N.eqb_refl]. Qed.

(** Components as the facade and the contracts see them. *)
Lemma wired_info {X} A (w : world X) : wired A w -> exists att factory registry, query_component_contracts (w_enterprise w) = Ok (factory, registry, wiring_of A att).
Proof.
  intros [(_ & att & Hc) _ _ _ _]. unfold query_component_contracts. rewrite Hc. cbn. eauto.
Qed.
Lemma wired_by {X} A (w : world X) : wired A w -> exists att, components_by A w (a_enterprise A) = Ok (wiring_of A att).
Proof.
  intros H. destruct (wired_info A w H) as (att & f & r & E). exists att. unfold components_by, enterprise_at. rewrite N.eqb_refl. cbn [bind].
  rewrite E. reflexivity.
Qed.

Lemma found_enterprise {X} A (F : FacadeModel.foreign) (w : world X) : NoDup (dao_addrs A) -> wired A w -> get_facade A F w (a_enterprise A) = Ok (NewDao (a_enterprise A)).
Proof.
  intros ND HW. unfold get_facade, old_info_at. rewrite dao_is_dao by (cbn; tauto).
  unfold by_treasury, admin_at. replace (a_enterprise A =? a_treasury A) with false.
  - rewrite dao_is_dao by (cbn; tauto). cbn [bind]. unfold by_enterprise, has_components. rewrite N.eqb_refl.
    destruct (wired_info A w HW) as (att & f & r & E). rewrite E. reflexivity.
  - symmetry. apply N.eqb_neq. intros E. unfold dao_addrs in ND. inversion ND as [|? ? H1 H2]; subst. apply H1. rewrite E. cbn. tauto.
Qed.

Lemma found_treasury {X} A (F : FacadeModel.foreign) (w : world X) : wired A w -> tr_admin (w_treasury w) = a_controller A ->
  get_facade A F w (a_treasury A) = Ok (NewDao (a_enterprise A)).
Proof.
  intros HW HT. unfold get_facade, old_info_at. rewrite dao_is_dao by (cbn; tauto).
  unfold by_treasury, admin_at. rewrite N.eqb_refl. cbn [bind]. rewrite HT. unfold config_at. rewrite N.eqb_refl. cbn [bind].
  rewrite (wi_of _ _ HW). reflexivity.
Qed.

Lemma not_found {X} A (F : FacadeModel.foreign) (w : world X) a : In a (dao_addrs A) -> a <> a_enterprise A -> a <> a_treasury A ->
  exists err, get_facade A F w a = Err err.
Proof.
  intros H HE HT. unfold get_facade, old_info_at. rewrite dao_is_dao by exact H. unfold by_treasury, admin_at.
  apply N.eqb_neq in HE, HT. rewrite HT, dao_is_dao by exact H. cbn [bind]. unfold by_enterprise, has_components.
  rewrite HE, dao_is_dao by exact H. eauto.
Qed.

(** * Kind and asset of the membership contract *)

(** The kind of a membership contract, and the denom, token or collection it accepts. *)
Definition same_kind (a b : member_state) : Prop :=
  match a, b with
  | MToken s, MToken s' | MDenom s, MDenom s' => st_asset s' = st_asset s
  | MNft s, MNft s' => forall c, ns_contract s = NCw721 c -> ns_contract s' = NCw721 c
  | MMultisig _, MMultisig _ => True
  | _, _ => False
  end.
Lemma same_kind_refl a : same_kind a a.
Proof. destruct a; cbn; auto. Qed.
Lemma same_kind_trans a b c : same_kind a b -> same_kind b c -> same_kind a c.
Proof. destruct a, b; cbn; try tauto; destruct c; cbn; try tauto; try congruence; auto. Qed.

Ltac step H := apply bind_ok in H; let x := fresh "x" in let Hx := fresh "Hx" in destruct H as (x & Hx & H); try (match type of x with (_ * _)%type => destruct x as [? ?] end); cbv beta iota in H.

Lemma add_nft_claim_contract s u l r s' : add_nft_claim s u l r = Ok s' -> ns_contract s' = ns_contract s.
Proof. unfold add_nft_claim. intros H. step H. inversion H; subst. reflexivity. Qed.

Lemma nft_contract_kept o s e sender m s' outs c : nft_execute o s e sender m = Ok (s', outs) -> ns_contract s = NCw721 c -> ns_contract s' = NCw721 c.
Proof.
  intros H Hc. destruct m; cbn [nft_execute] in H.
  - apply receive_nft_ok in H. destruct H as [_ H]. unfold resolved in H. rewrite Hc in H. destruct h as [u|u r|]; [| |destruct H].
    + unfold stake_nft in H. step H. step H. step H. step H. step H. inversion H; subst. exact Hc.
    + destruct H as (_ & H & _). apply add_nft_claim_contract in H. congruence.
  - unfold unstake_nft in H. step H. step H. step H. step H. step H. inversion H; subst.
    match goal with H : add_nft_claim _ _ _ _ = Ok _ |- _ => apply add_nft_claim_contract in H; cbn in H; congruence end.
  - unfold claim_nft in H. step H. step H. step H. inversion H; subst. exact Hc.
  - step H. inversion H; subst. unfold nft_update_period in Hx. step Hx. inversion Hx; subst. destruct p; exact Hc.
  - step H. inversion H; subst. exact Hc.
  - step H. inversion H; subst. exact Hc.
Qed.

Lemma step_kind st c : MemberProofs.inv st -> same_kind st (fst (member_step st c)).
Proof.
  intros HI. destruct (MemberProofs.step_cases st c) as [(st' & outs & Ha & ->)| ->]; [|apply same_kind_refl]. cbn [fst].
  destruct HI as [_ HK]. pose proof (fun s => stake_changes st c st' outs s 0 HK Ha) as HS. unfold accepts in Ha.
  destruct c as [o e sender coins msg]. cbn [mc_oracle mc_env mc_sender mc_coins mc_msg] in *.
  destruct st as [s|s|s|s], msg as [x|x|x|x]; cbn [member_execute] in Ha; try discriminate; step Ha; inversion Ha; subst; cbn [same_kind]; auto.
  - destruct (HS s) as (s1 & [E|E] & H1 & _); [left; reflexivity| |]; inversion E; subst; exact H1.
  - destruct (HS s) as (s1 & [E|E] & H1 & _); [right; reflexivity| |]; inversion E; subst; exact H1.
  - intros c. eapply nft_contract_kept. exact Hx.
Qed.

Lemma run_kind cs : forall st, inv st -> same_kind st (member_run st cs).
Proof.
  induction cs as [|c cs IH]; intros st HI; [apply same_kind_refl|]. change (member_run st (c :: cs)) with (member_run (fst (member_step st c)) cs).
  eapply same_kind_trans; [apply step_kind; exact HI|]. apply IH.
  destruct (MemberProofs.step_cases st c) as [(st' & outs & Ha & ->)| ->]; [eapply inv_accepts; eassumption|exact HI].
Qed.

Lemma type_kept cs : forall e, en_ok e -> en_finalized e = true -> en_type (en_run e cs) = en_type e.
Proof.
  induction cs as [|v cs IH]; intros e HO HF; [reflexivity|]. change (en_run e (v :: cs)) with (en_run (en_step e v) cs).
  destruct (en_handle e v) as [[e' out]|er] eqn:E.
  - unfold en_ok in HO. rewrite HF in HO. destruct (en_components e) as [c|] eqn:Ec; [|discriminate HO].
    assert (HO' : en_ok e) by (unfold en_ok; rewrite HF, Ec; reflexivity).
    destruct (en_wired_step e v e' out c HO' Ec E) as (H1 & _ & H2 & H3 & _).
    replace (en_step e v) with e' by (unfold en_step; rewrite E; reflexivity). rewrite IH by assumption. exact H2.
  - rewrite (en_step_err _ _ _ E). apply IH; assumption.
Qed.

(** What backs the membership stays the same; that of a collection behind a bridge is up to the bridge. *)
Lemma backed_stays X (Out : outside X) A w0 ts w asset : new_dao A w0 -> w = world_run Out A w0 ts ->
  backed Out w0 (en_type (w_enterprise w0)) asset -> (forall s p k, w_member w0 = MNft s -> ns_contract s <> NIcs721 p k) ->
  backed Out w (en_type (w_enterprise w)) asset /\ en_type (w_enterprise w) = en_type (w_enterprise w0).
Proof.
  intros HN HW HB HI. destruct (enterprise_history X Out A w0 ts w HN HW) as (cs & H1 & _).
  assert (HT : en_type (w_enterprise w) = en_type (w_enterprise w0)).
  { rewrite H1. apply type_kept; [|exact (nd_enterprise _ _ HN)]. destruct (nd_wiring _ _ HN) as (att & E). unfold en_ok. rewrite E. exact (nd_enterprise _ _ HN). }
  split; [|exact HT]. rewrite HT. destruct (membership_history X Out A w0 ts w HN HW) as (css & _ & H2 & _).
  assert (HK : same_kind (w_member w0) (w_member w)).
  { rewrite H2. apply run_kind. destruct (nd_membership _ _ HN) as (e & i & E). apply reachable_inv. exists e, i, (w_member w0), []. auto. }
  destruct HB as [s d E1 E2|s d E1 E2|s c E1 E2|s p k c E1 E2 E3|m E1]; rewrite E1 in HK; destruct (w_member w) as [s'|s'|s'|s'] eqn:E'; cbn in HK; try contradiction.
  - econstructor; [exact E'|congruence].
  - econstructor; [exact E'|congruence].
  - econstructor; [exact E'|auto].
  - destruct (HI s p k E1 E2).
  - econstructor. exact E'.
Qed.

(** * The adapters *)

Lemma membership_there {X} A (w : world X) : members_at A w (a_membership A) = Ok (w_member w).
Proof. unfold members_at. rewrite N.eqb_refl. reflexivity. Qed.
Lemma type_there {X} A (w : world X) : type_by A w (a_enterprise A) = Ok (en_type (w_enterprise w)).
Proof. unfold type_by, enterprise_at. rewrite N.eqb_refl. reflexivity. Qed.

Lemma adapt_exact X (Out : outside X) A w0 ts w e asset r : new_dao A w0 -> w = world_run Out A w0 ts -> lasting w ->
  backed Out w (en_type (w_enterprise w)) asset -> (forall id, r <> AExecute id) ->
  forall l, v2_adapt Out A w e (a_enterprise A) r = Ok l <-> messages A (en_type (w_enterprise w)) asset r = Some l.
Proof.
  intros HN HW HL HB HR l. assert (HX : wired A w) by (subst w; apply run_wired; assumption).
  destruct (wired_by A w HX) as (att & HC). pose proof (membership_there A w) as HM. pose proof (type_there A w) as HT.
  remember (en_type (w_enterprise w)) as t eqn:Et. clear Et HX HL.
  destruct r as [acts own|acts own n|acts own n|acts own toks|acts own|id o|id o|id|st|un|]; cbn [v2_adapt messages]; unfold v2_stake, v2_unstake, v2_claim;
    rewrite ?HC, ?HT; cbn [bind wiring_of c_controller c_membership c_outposts]; rewrite ?HM; cbn [bind];
    try (split; intros E; inversion E; reflexivity).
  - destruct HB; cbn [dao_type_eqb guard bind]; try (split; discriminate).
    rewrite H. cbn [denom_config]. rewrite H0. cbn [bind]. split; intros E; inversion E; reflexivity.
  - destruct HB; cbn [dao_type_eqb guard bind]; try (split; discriminate).
    rewrite H. cbn [token_config]. rewrite H0. cbn [bind]. split; intros E; inversion E; reflexivity.
  - destruct HB; cbn [dao_type_eqb guard bind]; try (split; discriminate).
    + rewrite H. cbn [nft_config]. rewrite H0. cbn [bind]. split; intros E; inversion E; reflexivity.
    + rewrite H. cbn [nft_config]. rewrite H0, H1. cbn [bind ok_or]. split; intros E; inversion E; reflexivity.
  - destruct (HR id eq_refl).
  - destruct HB; destruct st as [u n|u toks|u n]; rewrite H; cbn [token_config denom_config nft_config bind]; try (split; discriminate);
      rewrite H0; try rewrite H1; cbn [bind ok_or]; split; intros E; inversion E; reflexivity.
  - destruct un; split; intros E; inversion E; reflexivity.
  - destruct t; cbn [bind]; try rewrite HC; cbn [bind]; split; intros E; inversion E; reflexivity.
Qed.
