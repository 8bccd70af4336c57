(** The membership contract holds what is staked in it. *)
From Verif Require Import Base OMap OMapLemmas Assets FundsModel MemberModel MemberSpec MemberProofs MemberFacts Msgs ControllerModel
  TreasuryModel EnterpriseModel OutpostsModel WorldModel WorldSpec LedgerSpec.
From Verif Require WorldProofs LedgerProofs.

Lemma asset_same a b : asset_eqb a b = true <-> a = b.
Proof.
  destruct a, b; cbn; split; intros H; try discriminate; try (apply N.eqb_eq in H; congruence); try (inversion H; subst; rewrite ?N.eqb_refl; reflexivity).
  apply andb_prop in H. destruct H as [H1 H2]. apply N.eqb_eq in H1, H2. congruence.
Qed.

(** Amount of [a] among the payments of a membership contract. *)
Definition pays (a : asset) (outs : list member_out) : N :=
  lsum (fun o => match o with OPay b _ n => if asset_eqb a b then n else 0 | _ => 0 end) outs.

Lemma sends_pays a outs : lsum (fun y => sends (HAmount a) (sm_msg y)) (map member_sub outs) <= pays a outs.
Proof.
  unfold pays. rewrite lsum_map. apply lsum_le_in. intros o _. unfold member_sub, plain. cbn [sm_msg].
  destruct o as [hk ch|b to n|c to t]; [destruct a; cbn; lia| |destruct a; cbn; lia].
  destruct a as [d|t|t i], b as [d'|t'|t' i']; cbn; try lia; rewrite N.eqb_sym; [destruct (d =? d')|destruct (t =? t')]; lia.
Qed.

Lemma pays_report a m ch : pays a (report m ch) = 0.
Proof. unfold pays, report. rewrite lsum_map. apply lsum_zero. reflexivity. Qed.

Lemma ordinary_report m ch : Forall (fun y => sm_reply y = ReplyNever /\ ordinary (sm_msg y)) (map member_sub (report m ch)).
Proof. unfold report. rewrite map_map. apply Forall_forall. intros y Hy. apply in_map_iff in Hy. destruct Hy as (k & <- & _). cbn. auto. Qed.

(** A call pays at most the staked asset, and brings in only that. *)
Definition fair (st : member_state) (c : member_call) (outs : list member_out) (s : staking) : Prop :=
  (forall a, pays a outs <= if asset_eqb a (st_asset s) then paid_out outs else 0) /\
  staked_in st c <= in_coins (HAmount (st_asset s)) (mc_coins c)
                    + (match st_asset s, mc_msg c with Cw20 t, TokenMsg (TReceive n _) => if mc_sender c =? t then n else 0 | _, _ => 0 end).

(** contracts that do not hold a fungible asset *)
Definition kindly (st : member_state) : Prop :=
  match st with MToken s => exists t, st_asset s = Cw20 t | MDenom s => exists d, st_asset s = Native d | _ => True end.

Lemma stake_execute_fair o s e sender msg s' outs :
  keyed s -> stake_execute o s e sender msg = Ok (s', outs) ->
  st_asset s' = st_asset s /\ (forall a, pays a outs <= if asset_eqb a (st_asset s) then paid_out outs else 0) /\
  ((exists m ch, outs = report m ch) \/ outs = [] \/ exists u n, outs = [OPay (st_asset s) u n]).
Proof.
  intros Hk H. destruct msg; cbn [stake_execute] in H.
  - apply unstake_ok in H. destruct H as [r [Hr [-> [-> _]]]]. split; [reflexivity|]. split; [|left; eauto].
    intros a. rewrite pays_report. lia.
  - apply claim_ok in H; [|assumption]. destruct H as [_ [-> [-> _]]]. split; [reflexivity|]. split; [|right; right; eauto].
    intros a. unfold pays, paid_out. cbn [lsum fold_right]. destruct (asset_eqb a (st_asset s)); lia.
  - allb. unfold update_period in *. allb. split; [destruct p; reflexivity|]. split; [|auto]. intros a. unfold pays. cbn. lia.
  - allb. split; [reflexivity|]. split; [|auto]. intros a. unfold pays. cbn. lia.
  - allb. split; [reflexivity|]. split; [|auto]. intros a. unfold pays. cbn. lia.
Qed.

Lemma add_stake_report s e u a s' outs : add_stake s e u a = Ok (s', outs) -> st_asset s' = st_asset s /\ exists m ch, outs = report m ch.
Proof. intros H. apply add_stake_ok in H. destruct H as [-> [-> _]]. split; [reflexivity|eauto]. Qed.

Lemma accepts_fair st c st' outs s : inv st -> accepts st c st' outs -> staking_of st = Some s -> kindly st ->
  exists s', staking_of st' = Some s' /\ st_asset s' = st_asset s /\ kindly st' /\ fair st c outs s /\
  Forall (fun y => sm_reply y = ReplyNever /\ ordinary (sm_msg y)) (map member_sub outs).
Proof.
  intros [_ Hk] Ha E Hkind. pose proof Ha as Hx. unfold accepts in Hx. unfold fair, staked_in. rewrite Hx.
  destruct c as [o e sender coins msg]. cbn [mc_oracle mc_env mc_sender mc_coins mc_msg] in *.
  assert (Ord : ((exists m ch, outs = report m ch) \/ outs = [] \/ exists u n, outs = [OPay (st_asset s) u n]) ->
     (exists t, st_asset s = Cw20 t) \/ (exists d, st_asset s = Native d) ->
     Forall (fun y => sm_reply y = ReplyNever /\ ordinary (sm_msg y)) (map member_sub outs)).
  { intros [(m & ch & ->)|[->|(u & n & ->)]] Has; [apply ordinary_report|constructor|].
    constructor; [|constructor]. cbn. split; [reflexivity|]. destruct Has as [(t & ->)|(d & ->)]; exact I. }
  destruct st as [s0|s0|s0|m0], msg; cbn in Hx, E; try discriminate; apply bind_ok in Hx; destruct Hx as [[s1 o1] [H1 Hx]];
    inversion Hx; subst; inversion E; subst; clear E Hx; exists s1; cbn [staking_of kindly keys_ok] in *; (split; [reflexivity|]).
  - assert (Has : (exists t, st_asset s = Cw20 t) \/ (exists d, st_asset s = Native d)) by auto.
    destruct m as [amount h|m]; cbn [token_execute] in H1.
    + unfold token_receive in H1. apply bind_ok in H1. destruct H1 as [? [Hg H]]. apply guard_ok in Hg.
      assert (Hs : st_asset s = Cw20 sender).
      { destruct Hkind as (t & Et). rewrite Et in *. cbn in Hg. apply N.eqb_eq in Hg. congruence. }
      assert (G : st_asset s1 = st_asset s /\ ((exists m ch, outs = report m ch) \/ outs = [])).
      { destruct h.
        - apply stake_token_ok in H. destruct H as [_ [_ H]]. apply add_stake_report in H. destruct H; auto.
        - apply add_stakes_ok in H. destruct H as [m [ch [Hl [-> [-> _]]]]]. split; [reflexivity|]. left; eauto.
        - allb. apply add_claims_ok in Hb; [|assumption]. destruct Hb as [n [cl [-> _]]]. split; [reflexivity|auto].
        - discriminate. }
      destruct G as (G1 & G2). split; [exact G1|]. split; [rewrite G1; exact Hkind|]. split.
      * split; [|rewrite Hs, N.eqb_refl; lia]. intros a.
        destruct G2 as [(m & ch & ->)| ->]; [rewrite pays_report|unfold pays; cbn]; lia.
      * apply Ord; [tauto|auto].
    + destruct (stake_execute_fair _ _ _ _ _ _ _ Hk H1) as (G1 & G2 & G3). split; [exact G1|]. split; [rewrite G1; exact Hkind|].
      split; [|apply Ord; auto]. split; [exact G2|lia].
  - assert (Has : (exists t, st_asset s = Cw20 t) \/ (exists d, st_asset s = Native d)) by auto.
    destruct m as [user|m]; cbn [denom_execute] in H1.
    + apply stake_denom_ok in H1. destruct H1 as [d [a [-> [Hs [_ [_ H]]]]]]. apply add_stake_report in H. destruct H as (G1 & m & ch & ->).
      split; [exact G1|]. split; [rewrite G1; exact Hkind|]. split; [|apply Ord; eauto].
      split; [intros b; rewrite pays_report; lia|]. rewrite Hs. cbn [in_coins]. rewrite lsum_cons. cbn [fst snd]. rewrite N.eqb_refl. lia.
    + destruct (stake_execute_fair _ _ _ _ _ _ _ Hk H1) as (G1 & G2 & G3). split; [exact G1|]. split; [rewrite G1; exact Hkind|].
      split; [|apply Ord; auto]. split; [exact G2|]. destruct coins as [|[? ?] [|? ?]]; lia.
Qed.

(** * NFTs *)

Definition leaves (t : N) (outs : list member_out) : N :=
  lsum (fun o => match o with OSendNft _ _ t' => if t' =? t then 1 else 0 | _ => 0 end) outs.

Lemma leaves_report t m ch : leaves t (report m ch) = 0.
Proof. unfold leaves, report. rewrite lsum_map. apply lsum_zero. reflexivity. Qed.

Lemma leaves_sends t c u l : leaves t (map (fun k => OSendNft c u k) l) = count t l.
Proof. unfold leaves, count. rewrite lsum_map. reflexivity. Qed.

Lemma booked_claims s : forall t, lsum (fun c => count t (nc_tokens c)) (ovals (ns_claims s)) = osum (fun _ c => count t (nc_tokens c)) (ns_claims s).
Proof. intros t. unfold osum, ovals. rewrite lsum_map. reflexivity. Qed.

Lemma claims_added s t id c : nkeyed s -> id = ns_next_claim s ->
  osum (fun _ c => count t (nc_tokens c)) (oset (ns_claims s) id c) = osum (fun _ c => count t (nc_tokens c)) (ns_claims s) + count t (nc_tokens c).
Proof.
  intros Hk ->. pose proof (osum_oset (fun _ c => count t (nc_tokens c)) (ns_claims s) (ns_next_claim s) c) as H. cbv beta in H.
  unfold oval in H. destruct (oget (ns_claims s) (ns_next_claim s)) eqn:E; [apply Hk in E; lia|]. lia.
Qed.

Lemma accepts_nft st c st' outs s t : inv st -> accepts st c st' outs -> st = MNft s ->
  exists s', st' = MNft s' /\
    booked s' t + leaves t outs <= booked s t + (match mc_msg c with NftMsg (NReceive t' _) => if t' =? t then 1 else 0 | _ => 0 end) /\
    (forall col u k, In (OSendNft col u k) outs -> ns_contract s = NCw721 col) /\
    (ns_contract s' = ns_contract s \/ ns_contract s' = NCw721 (mc_sender c)) /\
    (forall k h, mc_msg c = NftMsg (NReceive k h) -> ns_contract s' = NCw721 (mc_sender c) /\
       forall a, ns_contract s = NCw721 a -> a = mc_sender c) /\
    (ns_contract s' <> ns_contract s -> exists p i, ns_contract s = NIcs721 p i) /\
    (forall a, pays a outs = 0) /\
    Forall (fun y => sm_reply y = ReplyNever /\ ordinary (sm_msg y)) (map member_sub outs).
Proof.
  intros [_ Hk] Ha ->. pose proof Ha as H. unfold accepts in H.
  destruct c as [o e sender coins msg]. cbn [mc_oracle mc_env mc_sender mc_coins mc_msg] in *.
  destruct msg; cbn in H; try discriminate. apply bind_ok in H. destruct H as [[s1 o1] [H H']]. inversion H'; subst; clear H'.
  exists s1. split; [reflexivity|]. cbn [keys_ok] in Hk. unfold booked. rewrite !booked_claims.
  destruct m as [k h|ts|user|p|h|h]; cbn [nft_execute] in H.
  - apply receive_nft_ok in H. destruct H as [Hcol H]. pose proof (resolved_fields s o sender) as [F1 [F2 [F3 [F4 F5]]]].
    assert (Fc : ns_contract (resolved s o sender) = NCw721 sender /\ forall a, ns_contract s = NCw721 a -> a = sender).
    { unfold resolved, collection_of in *. destruct (ns_contract s) eqn:E; [|split; [reflexivity|discriminate]].
      injection Hcol as ->. split; [exact E|]. intros a Q. congruence. }
    destruct Fc as [Fc Fa].
    assert (G : booked s1 t + leaves t outs <= booked s t + (if k =? t then 1 else 0) /\ ns_contract s1 = NCw721 sender /\
                ((exists m ch, outs = report m ch) \/ outs = [])).
    { unfold booked. rewrite !booked_claims. destruct h as [u|u r|]; [| |contradiction].
      - apply stake_nft_ok in H. destruct H as [-> [-> [_ [_ [Hfree _]]]]]. rewrite leaves_report. cbn [ns_with_members ns_with_stakes ns_stakes ns_claims ns_contract].
        rewrite F2, F3. split; [|split; [exact Fc|left; eauto]]. unfold ohas, is_some. rewrite oget_oset. destruct (k =? t); [|lia].
        destruct (oget (ns_stakes s) t); lia.
      - destruct H as [_ [H ->]]. unfold add_nft_claim in H. allb. cbn [ns_with_claims ns_stakes ns_claims ns_contract].
        split; [|split; [exact Fc|auto]]. rewrite F2, F3, F4, claims_added by auto. cbn [nc_tokens]. rewrite count_cons. unfold count at 2, leaves. cbn. lia. }
    destruct G as (G1 & G2 & G3). unfold booked in G1. rewrite !booked_claims in G1.
    split; [exact G1|]. split. { intros col u k' Hi. destruct G3 as [(m & ch & ->)| ->]; [exfalso; eapply report_no_nft; eassumption|destruct Hi]. }
    split; [right; exact G2|]. split; [intros k' h' E; split; [exact G2|exact Fa]|].
    split. { intros Hne. destruct (ns_contract s) as [a|p i] eqn:E; [|eauto]. exfalso. apply Hne. rewrite G2, (Fa _ eq_refl). reflexivity. }
    destruct G3 as [(m & ch & ->)| ->]; (split; [intros a; rewrite ?pays_report; reflexivity|]); [apply ordinary_report|constructor].
  - apply unstake_nft_ok in H. destruct H as [r [stk [Hl [_ [-> [-> _]]]]]]. apply unstake_nft_loop in Hl. destruct Hl as [Hn [Ho He]].
    cbn [ns_with_claims ns_with_members ns_with_stakes ns_stakes ns_claims ns_contract]. rewrite leaves_report, claims_added by auto.
    split. { cbn [nc_tokens]. rewrite count_nodup by assumption. unfold ohas, is_some. rewrite He. destruct (existsb (N.eqb t) ts) eqn:E; [|lia].
      apply existsb_exists in E. destruct E as [y [Hy Ey]]. apply N.eqb_eq in Ey. subst y. rewrite (Ho _ Hy). lia. }
    split. { intros col u k' Hi. exfalso; eapply report_no_nft; eassumption. }
    split; [auto|]. split; [discriminate|]. split; [intros Q; exfalso; apply Q; reflexivity|]. split; [intros a; apply pays_report|apply ordinary_report].
  - apply claim_nft_ok in H; [|assumption]. destruct H as [_ [col [Hcol [-> ->]]]].
    cbn [ns_with_claims ns_stakes ns_claims ns_contract]. rewrite leaves_sends, count_flat.
    split. { pose proof (osum_split (fun c => count t (nc_tokens c)) (nft_due e sender) (ns_claims s)) as Hsp. cbv beta in Hsp. lia. }
    split. { intros col' u k' Hi. apply in_map_iff in Hi. destruct Hi as [? [E _]]. congruence. }
    split; [auto|]. split; [discriminate|]. split; [intros Q; exfalso; apply Q; reflexivity|].
    split; [intros a; unfold pays; rewrite lsum_map; apply lsum_zero; reflexivity|].
    rewrite map_map. apply Forall_forall. intros y Hy. apply in_map_iff in Hy. destruct Hy as (k & <- & _). cbn. auto.
  - allb. unfold nft_update_period in *. allb.
    assert (E : ns_stakes (match p with Some p => ns_with_period s p | None => s end) = ns_stakes s /\
      ns_claims (match p with Some p => ns_with_period s p | None => s end) = ns_claims s /\
      ns_contract (match p with Some p => ns_with_period s p | None => s end) = ns_contract s) by (destruct p; auto).
    destruct E as (-> & -> & ->). unfold leaves, pays. cbn [lsum fold_right map].
    repeat (split; [auto; try lia; try discriminate; try (intros ? ? ? []); congruence|]). constructor.
  - allb. cbn [ns_with_members ns_stakes ns_claims ns_contract]. unfold leaves, pays. cbn [lsum fold_right map].
    repeat (split; [auto; try lia; try discriminate; try (intros ? ? ? []); congruence|]). constructor.
  - allb. cbn [ns_with_members ns_stakes ns_claims ns_contract]. unfold leaves, pays. cbn [lsum fold_right map].
    repeat (split; [auto; try lia; try discriminate; try (intros ? ? ? []); congruence|]). constructor.
Qed.

Lemma accepts_multisig st c st' outs m : accepts st c st' outs -> st = MMultisig m ->
  exists m', st' = MMultisig m' /\ (outs = [] \/ exists m1 ch, outs = report m1 ch).
Proof.
  unfold accepts. intros H ->. destruct (mc_msg c); cbn in H; try discriminate. apply bind_ok in H. destruct H as [[s1 o1] [H1 H]]. inversion H; subst.
  exists s1. split; [reflexivity|]. destruct m0; cbn [multisig_execute] in H1.
  - apply update_members_ok in H1. destruct H1 as [_ [_ [w [tt [ch [_ [-> _]]]]]]]. right; eauto.
  - apply set_members_ok in H1. destruct H1 as [_ [_ [w [_ [-> _]]]]]. right; eauto.
  - allb. auto.
  - allb. auto.
Qed.
