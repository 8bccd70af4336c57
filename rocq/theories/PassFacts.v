(** The members' accounts balance. *)
From Verif Require Import Base OMap OMapLemmas Assets FundsModel MemberModel MemberSpec MemberProofs MemberFacts Msgs ControllerModel
  TreasuryModel EnterpriseModel OutpostsModel WorldModel WorldSpec PassSpec.
From Verif Require WorldProofs LedgerFacts LedgerMember PassProofs.

(** * One call *)

Definition mine (u : addr) (c : claim) : N := if cl_user c =? u then cl_amount c else 0.
Definition my_nft (t : N) (u : addr) (c : nft_claim) : N := if nc_user c =? u then count t (nc_tokens c) else 0.

Lemma mine_mk u i v a r : mine u (mk_claim i v a r) = if v =? u then a else 0.
Proof. reflexivity. Qed.
Lemma my_nft_mk t u i v l r : my_nft t u (mk_nft_claim i v l r) = if v =? u then count t l else 0.
Proof. reflexivity. Qed.

Lemma waiting_osum s u : waiting s u = osum (fun _ c => mine u c) (st_claims s).
Proof. unfold waiting, osum, ovals. rewrite lsum_map. reflexivity. Qed.
Lemma claimed_osum s t u : times_claimed s t u = osum (fun _ c => my_nft t u c) (ns_claims s).
Proof. unfold times_claimed, osum, ovals. rewrite lsum_map. reflexivity. Qed.

Lemma add_claims_mine u l : forall s total s' total',
  fold_res (fun st c =>
      let '(s, total) := st in
      let '(user, a, r) := c in
      u <- addr_validate user ;;
      s <- add_claim s u a r ;;
      total <- uint_add total a ;;
      Ok (s, total)) (s, total) l = Ok (s', total') ->
  (forall id c, oget (st_claims s) id = Some c -> id < st_next_claim s) ->
  st_members s' = st_members s /\
  osum (fun _ c => mine u c) (st_claims s') = osum (fun _ c => mine u c) (st_claims s) + lsum (fun p => if fst (fst p) =? u then snd (fst p) else 0) l.
Proof.
  induction l as [|[[user a] r] t IH]; intros s total s' total' H Hk; cbn [fold_res] in H.
  - inversion H; subst. split; [reflexivity|]. change (lsum (fun p : N * N * release_at => if fst (fst p) =? u then snd (fst p) else 0) []) with 0. lia.
  - apply bind_ok in H. destruct H as [[s1 t1] [H1 H]]. unfold add_claim in H1. allb.
    apply IH in H.
    2:{ cbn. intros id c Hc. rewrite oget_oset in Hc. destruct (st_next_claim s =? id) eqn:E.
        - apply N.eqb_eq in E. lia.
        - apply Hk in Hc. lia. }
    destruct H as [E1 E2]. split; [exact E1|]. rewrite E2, lsum_cons. cbn [fst snd st_with_claims st_claims].
    pose proof (osum_oset (fun _ c => mine u c) (st_claims s) (st_next_claim s) (mk_claim (st_next_claim s) user a r)) as Ho.
    cbv beta in Ho. unfold oval in Ho. rewrite mine_mk in Ho.
    destruct (oget (st_claims s) (st_next_claim s)) eqn:E; [apply Hk in E; lia|]. lia.
Qed.

Lemma due_mine e u v l : lsum (mine v) (filter (due e u) l) = if u =? v then lsum cl_amount (filter (due e u) l) else 0.
Proof.
  induction l as [|c t IH]; cbn [filter]; [destruct (u =? v); reflexivity|].
  destruct (due e u c) eqn:E; [|exact IH]. rewrite !lsum_cons, IH. unfold due in E. apply andb_prop in E. destruct E as [E _]. apply N.eqb_eq in E.
  unfold mine. rewrite E. destruct (u =? v); lia.
Qed.

Definition pays_to (u : addr) (outs : list member_out) : N :=
  lsum (fun o => match o with OPay _ v n => if v =? u then n else 0 | _ => 0 end) outs.

Lemma pays_to_report u m ch : pays_to u (report m ch) = 0.
Proof. unfold pays_to, report. rewrite lsum_map. apply lsum_zero. reflexivity. Qed.

Lemma weight_set m u a v : member_weight (set_member_weight m u a) v = if u =? v then a else member_weight m v.
Proof. unfold member_weight, set_member_weight, with_member_weights, ogetN. cbn [m_weights]. rewrite oget_oset. destruct (u =? v); reflexivity. Qed.

Definition account (s : staking) (u : addr) : N := member_weight (st_members s) u + waiting s u.

Lemma add_stake_account s e v a s' outs u : add_stake s e v a = Ok (s', outs) ->
  account s' u + pays_to u outs = account s u + (if v =? u then a else 0).
Proof.
  intros H. apply add_stake_ok in H. destruct H as [-> [-> _]]. rewrite pays_to_report. unfold account, waiting. cbn [st_with_members st_members st_claims].
  change (member_weight (save_total_weight (set_member_weight (st_members s) v (member_weight (st_members s) v + a)) e (total_weight (st_members s) + a)) u)
    with (member_weight (set_member_weight (st_members s) v (member_weight (st_members s) v + a)) u).
  rewrite weight_set. destruct (N.eqb_spec v u) as [->|]; lia.
Qed.

Lemma stake_execute_account o s e sender msg s' outs u : keyed s -> stake_execute o s e sender msg = Ok (s', outs) ->
  account s' u + pays_to u outs = account s u.
Proof.
  intros Hk H. destruct msg; cbn [stake_execute] in H.
  - apply unstake_ok in H. destruct H as [r [Hr [-> [-> [Hle _]]]]]. rewrite pays_to_report. unfold account. rewrite !waiting_osum.
    cbn [st_with_claims st_with_members st_members st_claims].
    change (member_weight (save_total_weight (set_member_weight (st_members s) sender (member_weight (st_members s) sender - amount)) e (total_weight (st_members s) - amount)) u)
      with (member_weight (set_member_weight (st_members s) sender (member_weight (st_members s) sender - amount)) u).
    rewrite weight_set.
    pose proof (osum_oset (fun _ c => mine u c) (st_claims s) (st_next_claim s) (mk_claim (st_next_claim s) sender amount r)) as Ho.
    cbv beta in Ho. unfold oval in Ho. rewrite mine_mk in Ho.
    destruct (oget (st_claims s) (st_next_claim s)) eqn:E; [apply Hk in E; lia|].
    destruct (N.eqb_spec sender u) as [->|]; lia.
  - apply claim_ok in H; [|assumption]. destruct H as [_ [-> [-> _]]]. unfold account. rewrite !waiting_osum. cbn [st_with_claims st_members st_claims].
    unfold pays_to. cbn [lsum fold_right]. pose proof (osum_split (mine u) (due e sender) (st_claims s)) as Hs. rewrite due_mine in Hs. lia.
  - allb. unfold update_period in *. allb. unfold pays_to. cbn [lsum fold_right]. destruct p; unfold account, waiting; cbn [st_with_period st_members st_claims]; lia.
  - allb. unfold pays_to. cbn [lsum fold_right]. unfold account, waiting. cbn [st_with_members st_members st_claims]. unfold member_weight. unfold add_hook, remove_hook in *. allb. cbn. lia.
  - allb. unfold pays_to. cbn [lsum fold_right]. unfold account, waiting. cbn [st_with_members st_members st_claims]. unfold member_weight. unfold add_hook, remove_hook in *. allb. cbn. lia.
Qed.

Lemma accepts_account A st c st' outs s u : inv st -> accepts st c st' outs -> staking_of st = Some s ->
  exists s', staking_of st' = Some s' /\
    account s' u + pays_to u outs = account s u + put_in A u (mc_sender c, WasmExecute (a_membership A) (ToMembership (mc_msg c)) (mc_coins c)).
Proof.
  intros [_ Hk] Ha E. unfold accepts in Ha. destruct c as [o e sender coins msg]. cbn [mc_oracle mc_env mc_sender mc_coins mc_msg] in *.
  unfold put_in. cbn [fst snd]. rewrite N.eqb_refl.
  destruct st as [s0|s0|s0|m0], msg; cbn in Ha, E; try discriminate; apply bind_ok in Ha; destruct Ha as [[s1 o1] [H1 Ha]];
    inversion Ha; subst; inversion E; subst; clear E Ha; exists s1; cbn [staking_of keys_ok] in *; (split; [reflexivity|]).
  - destruct m as [amount h|m]; cbn [token_execute] in H1.
    + unfold token_receive in H1. apply bind_ok in H1. destruct H1 as [? [_ H]]. destruct h.
      * apply stake_token_ok in H. destruct H as [_ [_ H]]. eapply add_stake_account; eassumption.
      * apply add_stakes_ok in H. destruct H as [m [ch [Hl [-> [-> _]]]]]. rewrite pays_to_report.
        apply add_stakes_loop in Hl. destruct Hl as [w [more [-> [_ [_ [_ [_ [_ Hw]]]]]]]].
        unfold account, waiting. cbn [st_with_members st_members st_claims].
        change (member_weight (save_total_weight (with_member_weights (st_members s) w) e (total_weight (with_member_weights (st_members s) w) + amount)) u)
          with (ogetN w u). unfold member_weight. rewrite Hw. lia.
      * allb. unfold add_claims in Hb. apply bind_ok in Hb. destruct Hb as [[s2 t] [Hl H]]. allb.
        apply (add_claims_mine u) in Hl; [|intros id c Hc; apply Hk in Hc; tauto]. destruct Hl as [E1 E2].
        unfold account. rewrite !waiting_osum, E1, E2. unfold pays_to. cbn [lsum fold_right]. lia.
      * discriminate.
    + rewrite (stake_execute_account _ _ _ _ _ _ _ u Hk H1). lia.
  - destruct m as [user|m]; cbn [denom_execute] in H1.
    + apply stake_denom_ok in H1. destruct H1 as [d [a [-> [_ [_ [_ H]]]]]]. rewrite (add_stake_account _ _ _ _ _ _ u H).
      unfold lsum. cbn [fold_right snd]. destruct user as [v|]; cbn [dflt]; [destruct (v =? u)|destruct (sender =? u)]; lia.
    + rewrite (stake_execute_account _ _ _ _ _ _ _ u Hk H1). lia.
Qed.

(** * One call about NFTs *)

Definition nft_account (s : nft_staking) (t : N) (u : addr) : N := times_staked s t u + times_claimed s t u.
Definition sends_to (t : N) (u : addr) (outs : list member_out) : N :=
  lsum (fun o => match o with OSendNft _ v k => if (k =? t) && (v =? u) then 1 else 0 | _ => 0 end) outs.

Lemma sends_to_report t u m ch : sends_to t u (report m ch) = 0.
Proof. unfold sends_to, report. rewrite lsum_map. apply lsum_zero. reflexivity. Qed.

Lemma sends_to_all t u c v l : sends_to t u (map (fun k => OSendNft c v k) l) = if v =? u then count t l else 0.
Proof.
  unfold sends_to, count. rewrite lsum_map. destruct (v =? u).
  - apply lsum_ext_in. intros k _. destruct (k =? t); reflexivity.
  - apply lsum_zero. intros k _. destruct (k =? t); reflexivity.
Qed.

Lemma nft_due_mine e u v t l : lsum (my_nft t v) (filter (nft_due e u) l) = if u =? v then count t (flat_map nc_tokens (filter (nft_due e u) l)) else 0.
Proof.
  rewrite count_flat. induction l as [|c r IH]; cbn [filter]; [destruct (u =? v); reflexivity|].
  destruct (nft_due e u c) eqn:E; [|exact IH]. rewrite !lsum_cons, IH. unfold nft_due in E. apply andb_prop in E. destruct E as [E _]. apply N.eqb_eq in E.
  unfold my_nft. rewrite E. destruct (u =? v); lia.
Qed.

Lemma nft_added s t u id c : nkeyed s -> id = ns_next_claim s ->
  osum (fun _ c => my_nft t u c) (oset (ns_claims s) id c) = osum (fun _ c => my_nft t u c) (ns_claims s) + my_nft t u c.
Proof.
  intros Hk ->. pose proof (osum_oset (fun _ c => my_nft t u c) (ns_claims s) (ns_next_claim s) c) as H. cbv beta in H.
  unfold oval in H. destruct (oget (ns_claims s) (ns_next_claim s)) eqn:E; [apply Hk in E; lia|]. lia.
Qed.

Lemma accepts_nft_account A st c st' outs s t u : inv st -> accepts st c st' outs -> st = MNft s ->
  exists s', st' = MNft s' /\
    nft_account s' t u + sends_to t u outs = nft_account s t u + nft_in A t u (mc_sender c, WasmExecute (a_membership A) (ToMembership (mc_msg c)) (mc_coins c)).
Proof.
  intros [_ Hk] Ha ->. unfold accepts in Ha.
  destruct c as [o e sender coins msg]. cbn [mc_oracle mc_env mc_sender mc_coins mc_msg] in *. unfold nft_in. cbn [fst snd]. rewrite N.eqb_refl.
  destruct msg; cbn in Ha; try discriminate. apply bind_ok in Ha. destruct Ha as [[s1 o1] [H H']]. inversion H'; subst; clear H'.
  exists s1. split; [reflexivity|]. cbn [keys_ok] in Hk. unfold nft_account, times_staked. rewrite !claimed_osum.
  destruct m as [k h|ts|user|p|h|h]; cbn [nft_execute] in H.
  - apply receive_nft_ok in H. destruct H as [Hcol H]. pose proof (resolved_fields s o sender) as [F1 [F2 [F3 [F4 F5]]]].
    destruct h as [v|v r|]; [| |contradiction]; cbn [andb].
    + apply stake_nft_ok in H. destruct H as [-> [-> [_ [_ [Hfree _]]]]]. rewrite sends_to_report. cbn [ns_with_members ns_with_stakes ns_stakes ns_claims].
      rewrite F2 in *. rewrite F3. rewrite oget_oset. destruct (N.eqb_spec k t) as [->|]; [|cbn [andb]; lia]. rewrite Hfree. cbn [andb]. lia.
    + destruct H as [_ [H ->]]. unfold add_nft_claim in H. allb. cbn [ns_with_claims ns_stakes ns_claims].
      rewrite F2, F3, F4, nft_added by auto. rewrite my_nft_mk. rewrite count_cons.
      unfold count, sends_to. cbn [lsum fold_right]. destruct (k =? t), (v =? u); cbn [andb]; lia.
  - apply unstake_nft_ok in H. destruct H as [r [stk [Hl [_ [-> [-> _]]]]]]. apply unstake_nft_loop in Hl. destruct Hl as [Hn [Ho He]].
    cbn [ns_with_claims ns_with_members ns_with_stakes ns_stakes ns_claims]. rewrite sends_to_report, nft_added by auto.
    rewrite my_nft_mk. rewrite count_nodup by assumption. rewrite He. destruct (existsb (N.eqb t) ts) eqn:E; [|destruct (sender =? u); lia].
    apply existsb_exists in E. destruct E as [y [Hy Ey]]. apply N.eqb_eq in Ey. subst y. rewrite (Ho _ Hy). lia.
  - apply claim_nft_ok in H; [|assumption]. destruct H as [_ [col [Hcol [-> ->]]]].
    cbn [ns_with_claims ns_stakes ns_claims]. rewrite sends_to_all.
    pose proof (osum_split (my_nft t u) (nft_due e sender) (ns_claims s)) as Hsp. rewrite nft_due_mine in Hsp. lia.
  - allb. unfold nft_update_period in *. allb.
    assert (E : ns_stakes (match p with Some p => ns_with_period s p | None => s end) = ns_stakes s /\
      ns_claims (match p with Some p => ns_with_period s p | None => s end) = ns_claims s) by (destruct p; auto).
    destruct E as (-> & ->). unfold sends_to. cbn [lsum fold_right]. lia.
  - allb. cbn [ns_with_members ns_stakes ns_claims]. unfold sends_to. cbn [lsum fold_right]. lia.
  - allb. cbn [ns_with_members ns_stakes ns_claims]. unfold sends_to. cbn [lsum fold_right]. lia.
Qed.

(** * The whole DAO *)

Definition out_to (u : addr) (m : cosmos_msg) : N :=
  match m with
  | BankSend v coins => if v =? u then lsum snd coins else 0
  | WasmExecute _ (ToCw20 (Cw20Transfer v n)) _ => if v =? u then n else 0
  | WasmExecute _ (ToCw1155 (Cw1155Send _ v _ n)) _ => if v =? u then n else 0
  | _ => 0
  end.

Lemma out_pays u outs : lsum (fun y => out_to u (sm_msg y)) (map member_sub outs) = pays_to u outs.
Proof.
  unfold pays_to. rewrite lsum_map. apply lsum_ext_in. intros o _. unfold member_sub, plain. cbn [sm_msg].
  destruct o as [hk ch|a to n|c to t]; [reflexivity| |reflexivity].
  destruct a as [d|t|t i]; cbn [pay_msg out_to]; [|reflexivity..]. unfold lsum. cbn [fold_right snd]. destruct (to =? u); lia.
Qed.

Definition nft_to (t : N) (u : addr) (m : cosmos_msg) : N :=
  match m with WasmExecute _ (ToCw721 (Cw721Transfer v k)) _ => if (k =? t) && (v =? u) then 1 else 0 | _ => 0 end.

Lemma nft_sends t u outs : lsum (fun y => nft_to t u (sm_msg y)) (map member_sub outs) = sends_to t u outs.
Proof.
  unfold sends_to. rewrite lsum_map. apply lsum_ext_in. intros o _. unfold member_sub, plain. cbn [sm_msg].
  destruct o as [hk ch|a to n|c to k]; [reflexivity| |reflexivity]. destruct a; reflexivity.
Qed.

Lemma subs_plain outs : Forall (fun y => sm_reply y = ReplyNever) (map member_sub outs).
Proof. apply Forall_forall. intros y Hy. apply in_map_iff in Hy. destruct Hy as (o & <- & _). reflexivity. Qed.

Section W.
Context {X : Type}.
Variable Out : outside X.
Variable A : addrs.
Hypothesis HA : NoDup (dao_addrs A).

Definition staking_world (w : world X) : Prop := MemberProofs.inv (w_member w) /\ exists s, staking_of (w_member w) = Some s.
Definition held_for (u : addr) (w : world X) : N := match staking_of (w_member w) with Some s => account s u | None => 0 end.
Definition nft_world (w : world X) : Prop := MemberProofs.inv (w_member w) /\ exists s, w_member w = MNft s.
Definition nfts_for (t : N) (u : addr) (w : world X) : N := match w_member w with MNft s => nft_account s t u | _ => 0 end.

Lemma put_in_elsewhere u s to m coins : to <> a_membership A -> put_in A u (s, WasmExecute to m coins) = 0.
Proof. intros H. unfold put_in. cbn [snd]. destruct m; try reflexivity. destruct (N.eqb_spec to (a_membership A)); [contradiction|reflexivity]. Qed.

Lemma put_in_other u s m : (forall to wm coins, m <> WasmExecute to wm coins) -> put_in A u (s, m) = 0.
Proof. intros H. destruct m; try reflexivity. exfalso. eapply H. reflexivity. Qed.

Lemma nft_in_elsewhere t u s to m coins : to <> a_membership A -> nft_in A t u (s, WasmExecute to m coins) = 0.
Proof.
  intros H. unfold nft_in. cbn [snd]. destruct m; try reflexivity. destruct m; try reflexivity. destruct m; try reflexivity.
  destruct (N.eqb_spec to (a_membership A)); [contradiction|]. destruct h; reflexivity.
Qed.

Lemma nft_in_other t u s m : (forall to wm coins, m <> WasmExecute to wm coins) -> nft_in A t u (s, m) = 0.
Proof. intros H. destruct m; try reflexivity. exfalso. eapply H. reflexivity. Qed.

Lemma passbook_own u n w e s m coins w1 subs d : handle Out A n w e s (a_membership A) m coins = Ok (w1, subs, d) -> staking_world w ->
  staking_world w1 /\ held_for u w1 + lsum (fun y => out_to u (sm_msg y)) subs = held_for u w + put_in A u (s, WasmExecute (a_membership A) m coins) /\
  Forall (fun y => sm_reply y = ReplyNever) subs.
Proof.
  intros H (Hi & s0 & Es). apply (LedgerFacts.handle_at_member Out A HA) in H. destruct H as (mm & st' & outs & -> & H & -> & ->).
  set (c := mk_mcall (member_oracle_of Out A w (w_member w)) e s coins mm).
  assert (Ha : accepts (w_member w) c st' outs) by exact H.
  destruct (accepts_account A _ _ _ _ _ u Hi Ha Es) as (s' & Es' & HB). cbn [mc_sender mc_msg mc_coins c] in HB.
  split; [split; [eapply MemberProofs.inv_accepts; eassumption|exists s'; exact Es']|]. split; [|apply subs_plain].
  unfold held_for. cbn [w_member set_member]. rewrite Es, Es', out_pays. exact HB.
Qed.

Lemma nft_passbook_own t u n w e s m coins w1 subs d : handle Out A n w e s (a_membership A) m coins = Ok (w1, subs, d) -> nft_world w ->
  nft_world w1 /\ nfts_for t u w1 + lsum (fun y => nft_to t u (sm_msg y)) subs = nfts_for t u w + nft_in A t u (s, WasmExecute (a_membership A) m coins) /\
  Forall (fun y => sm_reply y = ReplyNever) subs.
Proof.
  intros H (Hi & s0 & Es). apply (LedgerFacts.handle_at_member Out A HA) in H. destruct H as (mm & st' & outs & -> & H & -> & ->).
  set (c := mk_mcall (member_oracle_of Out A w (w_member w)) e s coins mm).
  assert (Ha : accepts (w_member w) c st' outs) by exact H.
  destruct (accepts_nft_account A _ _ _ _ _ t u Hi Ha Es) as (s' & Es' & HB). cbn [mc_sender mc_msg mc_coins c] in HB.
  split; [split; [eapply MemberProofs.inv_accepts; eassumption|exists s'; exact Es']|]. split; [|apply subs_plain].
  unfold nfts_for. cbn [w_member set_member]. rewrite Es, Es', nft_sends. exact HB.
Qed.

End W.

Lemma init_account e i st s u : member_instantiate e i = Ok st -> staking_of st = Some s -> account s u = 0.
Proof.
  intros H E. destruct i; cbn in H; apply bind_ok in H; destruct H as [s1 [H1 H]]; inversion H; subst; cbn in E; try discriminate; inversion E; subst.
  - unfold token_instantiate, members_new in H1. allb. match goal with H : save_hooks _ _ = Ok _ |- _ => apply save_hooks_ok in H; destruct H as [h ->] end.
    unfold account, member_weight, save_checkpoints, save_total_weight. cbn. reflexivity.
  - unfold denom_instantiate, members_new in H1. allb. match goal with H : save_hooks _ _ = Ok _ |- _ => apply save_hooks_ok in H; destruct H as [h ->] end.
    unfold account, member_weight, save_total_weight. cbn. reflexivity.
Qed.

Lemma init_nft_account e i st s t u : member_instantiate e i = Ok st -> st = MNft s -> nft_account s t u = 0.
Proof.
  intros H E. destruct i; cbn in H; apply bind_ok in H; destruct H as [s1 [H1 H]]; inversion H as [Q]; rewrite E in Q; try discriminate. injection Q as ->. clear H.
  unfold nft_instantiate in H1. apply bind_ok in H1. destruct H1 as (? & _ & H1). apply bind_ok in H1. destruct H1 as (? & _ & H1).
  apply bind_ok in H1. destruct H1 as (? & _ & H1). inversion H1; subst. reflexivity.
Qed.

(** What was handed in for somebody is what they have staked, are waiting for and were given back. *)
Lemma passbook (X : Type) (Out : outside X) A w0 ts w s0 :
  new_dao A w0 -> w = world_run Out A w0 ts -> fungible (w_member w0) s0 ->
  exists s, fungible (w_member w) s /\
    forall u, lsum (put_in A u) (w_log w) = weight_of (w_member w) u + waiting s u + lsum (given_back A u) (w_log w).
Proof.
  intros HN -> Hs0. pose proof (nd_addrs _ _ HN) as HA. destruct (nd_membership _ _ HN) as (e & i & Hi).
  apply fungible_staking in Hs0.
  assert (HB : forall u, staking_world (world_run Out A w0 ts) /\
    lsum (put_in A u) (w_log (world_run Out A w0 ts)) = held_for u (world_run Out A w0 ts) + lsum (given_back A u) (w_log (world_run Out A w0 ts))).
  { intros u. apply (PassProofs.run_balance Out A (a_membership A) (put_in A u) (out_to u) (held_for u) staking_world).
    - apply LedgerFacts.in_dao_member.
    - intros. apply put_in_elsewhere. assumption.
    - intros. apply put_in_other. assumption.
    - intros w x. split; [intros H; exact H|reflexivity].
    - intros w x m. split; [intros H; exact H|reflexivity].
    - intros w. split; [intros H; exact H|reflexivity].
    - intros n w e0 s to m coins w1 subs d H Hn. pose proof (LedgerFacts.handle_member _ _ _ _ _ _ _ _ _ _ _ _ H Hn) as E.
      unfold staking_world, held_for. rewrite E. auto.
    - intros w e0 self id r w1 more H Hn. destruct (LedgerFacts.reply_both _ _ _ _ _ _ _ _ _ H) as (E & _).
      unfold staking_world, held_for. rewrite E. auto.
    - intros. eapply passbook_own; eassumption.
    - split; [apply (MemberProofs.init_inv _ _ _ Hi)|exists s0; exact Hs0].
    - rewrite (nd_log _ _ HN). unfold held_for. rewrite Hs0, (init_account _ _ _ _ _ Hi Hs0). reflexivity. }
  destruct (HB 0) as ((_ & s & Es) & _). exists s. split; [apply fungible_staking; exact Es|].
  intros u. destruct (HB u) as (_ & E). rewrite E. unfold held_for. rewrite Es. unfold account.
  f_equal. f_equal. unfold weight_of, member_weight. destruct (w_member (world_run Out A w0 ts)); inversion Es; subst; reflexivity.
Qed.

(** ... and the same for every NFT. *)
Lemma nft_passbook (X : Type) (Out : outside X) A w0 ts w s0 :
  new_dao A w0 -> w = world_run Out A w0 ts -> w_member w0 = MNft s0 ->
  exists s, w_member w = MNft s /\
    forall t u, lsum (nft_in A t u) (w_log w) = times_staked s t u + times_claimed s t u + lsum (nft_back A t u) (w_log w).
Proof.
  intros HN -> Hs0. pose proof (nd_addrs _ _ HN) as HA. destruct (nd_membership _ _ HN) as (e & i & Hi).
  assert (HB : forall t u, nft_world (world_run Out A w0 ts) /\
    lsum (nft_in A t u) (w_log (world_run Out A w0 ts)) =
    nfts_for t u (world_run Out A w0 ts) + lsum (PassProofs.outgoing (a_membership A) (nft_to t u)) (w_log (world_run Out A w0 ts))).
  { intros t u. apply (PassProofs.run_balance Out A (a_membership A) (nft_in A t u) (nft_to t u) (nfts_for t u) nft_world).
    - apply LedgerFacts.in_dao_member.
    - intros. apply nft_in_elsewhere. assumption.
    - intros. apply nft_in_other. assumption.
    - intros w x. split; [intros H; exact H|reflexivity].
    - intros w x m. split; [intros H; exact H|reflexivity].
    - intros w. split; [intros H; exact H|reflexivity].
    - intros n w e0 s to m coins w1 subs d H Hn. pose proof (LedgerFacts.handle_member _ _ _ _ _ _ _ _ _ _ _ _ H Hn) as E.
      unfold nft_world, nfts_for. rewrite E. auto.
    - intros w e0 self id r w1 more H Hn. destruct (LedgerFacts.reply_both _ _ _ _ _ _ _ _ _ H) as (E & _).
      unfold nft_world, nfts_for. rewrite E. auto.
    - intros. eapply nft_passbook_own; eassumption.
    - split; [apply (MemberProofs.init_inv _ _ _ Hi)|exists s0; exact Hs0].
    - rewrite (nd_log _ _ HN). unfold nfts_for. rewrite Hs0, (init_nft_account _ _ _ _ _ _ Hi Hs0). reflexivity. }
  destruct (HB 0 0) as ((_ & s & Es) & _). exists s. split; [exact Es|].
  intros t u. destruct (HB t u) as (_ & E). rewrite E. unfold nfts_for. rewrite Es. unfold nft_account.
  f_equal. apply lsum_ext_in. intros [x m] _. unfold PassProofs.outgoing, nft_to, nft_back. cbn [fst snd].
  destruct m; try (destruct (x =? _); reflexivity). destruct m; try (destruct (x =? _); reflexivity). destruct m; try (destruct (x =? _); reflexivity).
Qed.
