(** Rewards are shared among the members by their votes, and nobody's reward is touched otherwise. *)
From Verif Require Import Base OMap OMapLemmas Assets PollModel FundsModel FundsSpec FundsProofs FundsFacts MemberModel MemberSpec
  Msgs ControllerModel TreasuryModel TreasurySpec TreasuryProofs TreasuryFacts EnterpriseModel OutpostsModel WorldModel WorldSpec WorldMember WorldProofs WorldRun
  LiftSpec LiftFacts LiveResults RewardSpec RewardProofs RewardFacts ExitSpec ExitProofs ExitFacts ShareSpec.

(** * Nobody's reward changes but by a distribution or by their own claim *)

Definition call_brings (a : asset) (c : funds_call) : Prop :=
  match fc_msg c with
  | FDistributeNative => exists d n, a = Native d /\ In (d, n) (fc_coins c)
  | FReceive _ _ => a = Cw20 (fc_sender c)
  | _ => False
  end.
Definition call_takes (u : addr) (a : asset) (c : funds_call) : Prop :=
  match fc_msg c with
  | FClaim v ns cs => v = u /\ exists d, (a = Native d /\ In d ns) \/ (a = Cw20 d /\ In d cs)
  | _ => False
  end.

Lemma grows T eff r r' l u a : T = wsum eff -> side_ok r eff -> fold_res (distribute_one T) r l = Ok r' -> forall w, amt r w u a <= amt r' w u a.
Proof.
  intros HT Hs Hf w. destruct (distribute_fold T eff l HT r r' Hs Hf) as (_ & Hd & _ & _ & Hg). specialize (Hg a).
  destruct (idx_dist r r' u a (Hd u a)) as [H1 H2]. unfold amt. rewrite H1, H2. apply N.add_le_mono_r. apply N.div_le_mono; [pose proof DEC_pos; lia|].
  apply N.mul_le_mono_l. lia.
Qed.

Lemma step_amount f c u a : funds_ok f -> let f' := fst (funds_step f c) in
  funds_ok f' /\ (~ call_takes u a c -> amount f u a <= amount f' u a) /\
  (~ call_takes u a c -> ~ call_brings a c -> amount f' u a = amount f u a).
Proof.
  intros Hok. cbv zeta. unfold funds_step. destruct (funds_execute (fc_oracle c) f (fc_sender c) (fc_coins c) (fc_msg c)) as [[f' ps]|] eqn:H; cbn [fst];
    [|split; [exact Hok|split; [intros _; apply N.le_refl|reflexivity]]].
  destruct (execute_balance _ _ _ _ _ _ _ Hok H) as (Hok' & _). split; [exact Hok'|].
  unfold call_takes, call_brings. destruct c as [o s coins m]. cbn [fc_oracle fc_sender fc_coins fc_msg] in *.
  destruct m as [ch|mn| |user ns cs|x known]; cbn [funds_execute] in H.
  - apply bind_ok in H. destruct H as (f1 & Hb & H). inversion H; subst f1 ps. destruct (update_user_weights_ok _ _ _ _ Hok Hb) as (_ & [] & _).
    assert (E : amount f' u a = amount f u a) by (destruct a; cbn [amount]; auto). split; intros; lia.
  - apply bind_ok in H. destruct H as (f1 & Hb & H). inversion H; subst f1 ps.
    destruct (update_minimum_ok _ _ _ _ Hok Hb) as (_ & H1 & H2 & _ & _ & _ & _ & _ & _ & _ & H3 & H4).
    assert (E : amount f' u a = amount f u a) by (destruct a; cbn [amount]; auto). split; intros; lia.
  - apply bind_ok in H. destruct H as (f1 & Hb & H). inversion H; subst f1 ps. destruct (distribute_native_ok _ _ _ _ Hok Hb) as (HT & n & -> & Hf).
    destruct Hok as (HT2 & _ & Hn & Hc). destruct a as [d|d|d i]; cbn [amount]; try (split; intros; reflexivity || lia).
    unfold namt. cbn [f_native f_eff with_rewards]. split; [intros _; exact (grows _ _ _ _ _ _ _ HT2 Hn Hf _)|].
    intros _ Hb2. apply (side_share_other _ _ _ _ _ _ _ HT2 Hn Hf). intros Hin. apply in_map_iff in Hin. destruct Hin as ((d2 & n2) & <- & Hin).
    apply Hb2. exists d2, n2. auto.
  - destruct (claim_ok _ _ _ _ _ _ _ _ Hok H) as (_ & _ & _ & _ & n & o1 & c & o2 & -> & Hn' & Hc' & _).
    assert (E : ~ (user = u /\ exists d, (a = Native d /\ In d ns) \/ (a = Cw20 d /\ In d cs)) -> amount (with_rewards f n c) u a = amount f u a).
    { intros Hno. rewrite (FundsFacts.claim_amount f n c user ns cs o1 o2 u a Hn' Hc'). destruct ((u =? user) && asset_in a (map Native ns ++ map Cw20 cs)) eqn:E; [|reflexivity].
      exfalso. apply andb_prop in E. destruct E as (E1 & E2). apply N.eqb_eq in E1. apply Hno. split; [auto|]. apply asset_in_In, in_app_iff in E2.
      rewrite !in_map_iff in E2. destruct E2 as [(d & <- & Hd)|(d & <- & Hd)]; eauto. }
    split; [intros Hno; rewrite (E Hno); lia|auto].
  - destruct known; [|discriminate]. apply bind_ok in H. destruct H as (f1 & Hb & H). inversion H; subst f1 ps.
    destruct (distribute_cw20_ok _ _ _ _ _ Hok Hb) as (HT & c & -> & Hf).
    destruct Hok as (HT2 & _ & Hn & Hc). destruct a as [d|d|d i]; cbn [amount]; try (split; intros; reflexivity || lia).
    unfold camt. cbn [f_cw20 f_eff with_rewards]. split; [intros _; exact (grows _ _ _ _ _ _ _ HT2 Hc Hf _)|].
    intros _ Hb2. apply (side_share_other _ _ _ _ _ _ _ HT2 Hc Hf). cbn [map fst In]. intros [->|[]]. apply Hb2. reflexivity.
Qed.

Lemma steps_amount u a cs : forall f, funds_ok f -> let f' := fold_left (fun f c => fst (funds_step f c)) cs f in
  funds_ok f' /\ ((forall c, In c cs -> ~ call_takes u a c) -> amount f u a <= amount f' u a) /\
  ((forall c, In c cs -> ~ call_takes u a c) -> (forall c, In c cs -> ~ call_brings a c) -> amount f' u a = amount f u a).
Proof.
  induction cs as [|c cs IH]; intros f Hok; [cbn [fold_left]; split; [exact Hok|split; [intros _; apply N.le_refl|reflexivity]]|].
  cbn [fold_left]. destruct (step_amount f c u a Hok) as (H1 & H2 & H3). destruct (IH _ H1) as (H4 & H5 & H6). split; [exact H4|]. split.
  - intros Ht. etransitivity; [apply H2, Ht; left; reflexivity|apply H5; intros c2 Hc; apply Ht; right; exact Hc].
  - intros Ht Hb. rewrite H6; [apply H3; [apply Ht|apply Hb]; left; reflexivity|intros c2 Hc; apply Ht; right; exact Hc|intros c2 Hc; apply Hb; right; exact Hc].
Qed.

Lemma run_app X (Out : outside X) A w ts us : world_run Out A w (ts ++ us) = world_run Out A (world_run Out A w ts) us.
Proof. unfold world_run. apply fold_left_app. Qed.

Lemma rewards_kept X (Out : outside X) A w0 ts us w w' l minimum initial u a : new_dao A w0 ->
  funds_instantiate (a_controller A) (a_enterprise A) minimum initial = Ok (w_funds w0) ->
  w = world_run Out A w0 ts -> w' = world_run Out A w us -> w_log w' = l ++ w_log w ->
  (forall x, In x l -> ~ takes A u a x) ->
  (forall n n', claimable (w_funds w) u a = Ok n -> claimable (w_funds w') u a = Ok n' -> n <= n') /\
  ((forall x, In x l -> ~ brings A a x) -> claimable (w_funds w') u a = claimable (w_funds w) u a).
Proof.
  intros HN HI HW HW' HL Ht. destruct (funds_history X Out A w0 ts w HN HW) as (cs0 & E0 & _).
  assert (R : reachable (books_run (w_funds w0) cs0)) by (repeat eexists; exact HI).
  destruct (reachable_solvent _ R) as (Hok & _). rewrite <- E0 in Hok.
  destruct (funds_lift Out A (nd_addrs _ _ HN) us w) as (l2 & cs & H1 & H2 & H3). rewrite <- HW' in *. rewrite HL in H1. apply app_inv_tail in H1. subst l2.
  assert (K : forall c, In c cs -> exists x, In x l /\ snd x = WasmExecute (a_funds A) (ToFunds (fc_msg c)) (fc_coins c) /\ fst x = fc_sender c).
  { intros c Hc. assert (Hin : In (fc_sender c, ToFunds (fc_msg c), fc_coins c) (flat_map (seen_by (a_funds A)) (rev l))).
    { rewrite <- H3. apply (in_map (fun c => (fc_sender c, ToFunds (fc_msg c), fc_coins c))). exact Hc. }
    apply in_flat_map in Hin. destruct Hin as (x & Hx & Hs). exists x. split; [apply in_rev; exact Hx|]. unfold seen_by in Hs.
    destruct (snd x) eqn:Em; try destruct Hs. destruct (contract =? a_funds A) eqn:E; [|destruct Hs]. apply N.eqb_eq in E. subst contract.
    destruct Hs as [Hs|[]]. inversion Hs; subst. split; reflexivity. }
  destruct (steps_amount u a cs _ Hok) as (Hok' & S1 & S2). rewrite <- H2 in *.
  assert (T : forall c, In c cs -> ~ call_takes u a c).
  { intros c Hc Hct. destruct (K c Hc) as (x & Hx & E & _). apply (Ht x Hx). unfold takes. rewrite E. unfold call_takes in Hct. destruct (fc_msg c); try (destruct Hct; fail). auto. }
  split.
  - intros n n' Hn Hn'. apply claimable_ok in Hn; [|exact Hok]. apply claimable_ok in Hn'; [|exact Hok']. destruct Hn as (-> & _), Hn' as (-> & _). auto.
  - intros Hb. apply claimable_same; [exact Hok|exact Hok'|]. apply S2; [exact T|]. intros c Hc Hcb. destruct (K c Hc) as (x & Hx & E & E2). apply (Hb x Hx).
    unfold brings. rewrite E, E2. unfold call_brings in Hcb. destruct (fc_msg c); try (destruct Hcb; fail); auto.
Qed.

(** * What a distribution does, and when it succeeds *)

Lemma fold_fits T l : T <> 0 -> NoDup (map fst l) -> forall r,
  (exists r', fold_res (distribute_one T) r l = Ok r') <-> forall a n, In (a, n) l -> ogetN (r_global r) a + n * DEC / T < M128.
Proof.
  intros HT. induction l as [|[d n] l IH]; intros Hnd r.
  - split; [intros _ a n []|intros _; exists r; reflexivity].
  - cbn [map fst] in Hnd. inversion Hnd as [|? ? Hni Hnd']; subst. cbn [fold_res].
    assert (F : forall r1, distribute_one T r (d, n) = Ok r1 <-> r1 = set_global r d (ogetN (r_global r) d + n * DEC / T) /\ ogetN (r_global r) d + n * DEC / T < M128).
    { intros r1. unfold distribute_one, dec_from_ratio, dec_checked_from_ratio. replace (T =? 0) with false by lia.
      set (q := n * DEC / T). set (g := ogetN _ d). unfold uint_cadd. destruct (q <? M128) eqn:E1; cbn [bind].
      - destruct (g + q <? M128) eqn:E2; cbn [bind]; split.
        + intros H. inversion H; subst. split; [reflexivity|lia].
        + intros (-> & _). reflexivity.
        + discriminate.
        + intros (_ & H). lia.
      - split; [discriminate|]. intros (_ & H). lia. }
    split.
    + intros (r' & H). apply bind_ok in H. destruct H as (r1 & H1 & H2). apply F in H1. destruct H1 as (-> & Hlt).
      assert (X : exists r', fold_res (distribute_one T) (set_global r d (ogetN (r_global r) d + n * DEC / T)) l = Ok r') by eauto. rewrite (IH Hnd') in X.
      intros a k [E|Hin]; [inversion E; subst; exact Hlt|]. specialize (X a k Hin). cbn [set_global r_global] in X.
      unfold ogetN in X at 1. rewrite oget_oset_ne in X; [exact X|]. intros ->. apply Hni. apply (in_map fst) in Hin. exact Hin.
    + intros H. assert (H1 : distribute_one T r (d, n) = Ok (set_global r d (ogetN (r_global r) d + n * DEC / T))) by (apply F; split; [reflexivity|apply H; left; reflexivity]).
      rewrite H1. cbn [bind]. apply (IH Hnd'). intros a k Hin. cbn [set_global r_global]. unfold ogetN at 1. rewrite oget_oset_ne; [apply H; right; exact Hin|].
      intros ->. apply Hni. apply (in_map fst) in Hin. exact Hin.
Qed.

Section Tx.
Context {X : Type} (Out : outside X) (A : addrs).
Hypothesis HA : NoDup (dao_addrs A).

Lemma funds_tx w gas e s m coins w' : is_dao A s = false ->
  world_tx Out A w (mk_tx gas e s (WasmExecute (a_funds A) (ToFunds m) coins)) = Ok w' ->
  exists n x f' ps d, gas = S n /\ x_pay Out (w_ext w) s (a_funds A) coins = Ok x /\
    let w2 := set_ext (note w s (WasmExecute (a_funds A) (ToFunds m) coins)) x in
    funds_execute (funds_oracle_of Out A n w2) (w_funds w) s coins m = Ok (f', ps) /\
    WorldModel.go Out A n (set_funds w2 f') e (JSubs (a_funds A) (map funds_sub ps)) = Ok (w', d).
Proof.
  intros Hs H. unfold world_tx in H. cbn [tx_gas tx_env tx_signer tx_msg] in H. rewrite Hs in H. cbn [negb guard bind] in H.
  apply bind_ok in H. destruct H as ((w1 & d) & H & E). inversion E; subst w1. destruct gas as [|n]; [discriminate|]. cbn [WorldModel.go] in H.
  apply bind_ok in H. destruct H as (x & Hx & H). change (w_ext (note w s (WasmExecute (a_funds A) (ToFunds m) coins))) with (w_ext w) in Hx.
  apply bind_ok in H. destruct H as (((w3 & subs) & d3) & Hh & H). apply bind_ok in H. destruct H as ((w4 & d4) & Hg & H). inversion H; subst w4.
  unfold WorldModel.handle in Hh. pose proof (apart A HA) as HH.
  replace (a_funds A =? a_controller A) with false in Hh by (symmetry; apply N.eqb_neq; intros E1; decompose [and] HH; congruence).
  replace (a_funds A =? a_governance A) with false in Hh by (symmetry; apply N.eqb_neq; intros E1; decompose [and] HH; congruence).
  replace (a_funds A =? a_membership A) with false in Hh by (symmetry; apply N.eqb_neq; intros E1; decompose [and] HH; congruence).
  replace (a_funds A =? a_council A) with false in Hh by (symmetry; apply N.eqb_neq; intros E1; decompose [and] HH; congruence).
  rewrite N.eqb_refl in Hh. apply bind_ok in Hh. destruct Hh as ((f' & ps) & Hf & Hh). inversion Hh; subst w3 subs.
  exists n, x, f', ps, d4. repeat split; auto.
Qed.

Lemma funds_tx_back w n e s m coins x f' : is_dao A s = false -> x_pay Out (w_ext w) s (a_funds A) coins = Ok x ->
  let w2 := set_ext (note w s (WasmExecute (a_funds A) (ToFunds m) coins)) x in
  funds_execute (funds_oracle_of Out A (S n) w2) (w_funds w) s coins m = Ok (f', []) ->
  world_tx Out A w (mk_tx (S (S n)) e s (WasmExecute (a_funds A) (ToFunds m) coins)) = Ok (set_funds w2 f').
Proof.
  intros Hs Hx w2 Hf. unfold world_tx. cbn [tx_gas tx_env tx_signer tx_msg]. rewrite Hs. cbn [negb guard bind].
  assert (G : WorldModel.go Out A (S (S n)) w e (JMsg s (WasmExecute (a_funds A) (ToFunds m) coins)) = Ok (set_funds w2 f', None)); [|rewrite G; reflexivity].
  eapply go_send; [exact Hx| |apply go_done]. fold w2. unfold WorldModel.handle. pose proof (apart A HA) as HH.
  replace (a_funds A =? a_controller A) with false by (symmetry; apply N.eqb_neq; intros E1; decompose [and] HH; congruence).
  replace (a_funds A =? a_governance A) with false by (symmetry; apply N.eqb_neq; intros E1; decompose [and] HH; congruence).
  replace (a_funds A =? a_membership A) with false by (symmetry; apply N.eqb_neq; intros E1; decompose [and] HH; congruence).
  replace (a_funds A =? a_council A) with false by (symmetry; apply N.eqb_neq; intros E1; decompose [and] HH; congruence).
  rewrite N.eqb_refl. change (w_funds w2) with (w_funds w). rewrite Hf. reflexivity.
Qed.
End Tx.

Lemma shared_by_votes X (Out : outside X) A w0 ts w minimum initial gas e s m coins given w' : new_dao A w0 ->
  funds_instantiate (a_controller A) (a_enterprise A) minimum initial = Ok (w_funds w0) ->
  (forall u, reward_weight w0 u = weight_of (w_member w0) u) ->
  w = world_run Out A w0 ts -> lasting w -> undisturbed A w ->
  distribution s m coins given -> is_dao A s = false ->
  world_tx Out A w (mk_tx gas e s (WasmExecute (a_funds A) (ToFunds m) coins)) = Ok w' ->
  (forall u a n x x', NoDup (map fst given) -> In (a, n) given -> claimable (w_funds w) u a = Ok x -> claimable (w_funds w') u a = Ok x' ->
     let v := own_votes w u in let all := sharing_votes w in
     x <= x' /\ (x' - x) * all <= n * v + all /\ n * v * DEC < (x' - x) * all * DEC + v * all + all * DEC) /\
  (forall u a, ~ In a (map fst given) -> claimable (w_funds w') u a = claimable (w_funds w) u a) /\
  w_log w' = (s, WasmExecute (a_funds A) (ToFunds m) coins) :: w_log w /\
  rest_same w w' /\ w_gov w' = w_gov w /\ w_member w' = w_member w.
Proof.
  intros HN HI H0 HW HL HU HD Hs H. destruct (funds_tx Out A (nd_addrs _ _ HN) _ _ _ _ _ _ _ Hs H) as (n & x & f' & ps & d & -> & Hx & Hf & Hg).
  destruct (funds_history X Out A w0 ts w HN HW) as (cs & Ec & _).
  assert (R : reachable (books_run (w_funds w0) cs)) by (repeat eexists; exact HI). set (b := books_run (w_funds w0) cs) in *. rewrite Ec in Hf.
  set (o := funds_oracle_of _ _ _ _) in *.
  assert (Hm : m = FDistributeNative \/ exists x k, m = FReceive x k) by (destruct HD; [left; reflexivity|right; eauto]).
  assert (Hgiven : handed_over (b_funds b) (mk_fcall o s coins m) = given) by (unfold handed_over; cbn [fc_oracle fc_sender fc_coins fc_msg]; rewrite Hf; destruct HD; reflexivity).
  assert (Hps : ps = []).
  { destruct Hm as [->|(y & k & ->)]; cbn [funds_execute] in Hf; [|destruct k; [|discriminate]]; apply bind_ok in Hf; destruct Hf as (f2 & _ & Hf); inversion Hf; reflexivity. }
  subst ps. cbn [map] in Hg. destruct n as [|n]; [discriminate|]. rewrite go_done in Hg. inversion Hg; subst w' d. clear Hg.
  cbn [w_funds w_log w_gov w_member set_funds set_ext note]. split; [|split; [|split; [reflexivity|split; [repeat split|split; reflexivity]]]].
  - intros u a k y y' Hnd Hin Hy Hy'. cbv zeta.
    destruct (reward_effect X Out A w0 ts w minimum initial HN HI HW HL HU u (H0 u)) as (_ & E1).
    pose proof (reward_total X Out A w0 ts w minimum initial HN HI H0 HW HL HU) as E2.
    unfold own_votes, sharing_votes. rewrite <- E1, <- E2. rewrite Ec in *.
    refine (share b o s coins m f' [] a k u y y' R Hf _ _ Hy Hy'); rewrite Hgiven; assumption.
  - intros u a Hni. rewrite Ec. refine (proj1 (share_others b o s coins m f' [] a u R Hm Hf _)). rewrite Hgiven. exact Hni.
Qed.

Lemma sharing_exact X (Out : outside X) A w0 ts w minimum initial assets nfts W gas e s m coins given : new_dao A w0 ->
  funds_instantiate (a_controller A) (a_enterprise A) minimum initial = Ok (w_funds w0) ->
  treasury_instantiate (a_controller A) assets nfts = Ok (w_treasury w0) ->
  (forall u, reward_weight w0 u = weight_of (w_member w0) u) ->
  w = world_run Out A w0 ts -> lasting w -> undisturbed A w ->
  distribution s m coins given -> NoDup (map fst given) -> is_dao A s = false ->
  NoDup W -> (forall a, In a W <-> listed (w_treasury w) a) -> (length W + 2 <= gas)%nat ->
  (exists w', world_tx Out A w (mk_tx gas e s (WasmExecute (a_funds A) (ToFunds m) coins)) = Ok w') <->
  exists x, x_pay Out (w_ext w) s (a_funds A) coins = Ok x /\ sharing_votes w <> 0 /\
    forall a n, In (a, n) given ->
      (listed (w_treasury w) a \/ In a (x_global Out x (en_factory (w_enterprise w)))) /\ per_vote w a + n * DEC / sharing_votes w < 2 ^ 128.
Proof.
  intros HN HI HT H0 HW HL HU HD Hnd Hs HWn HWl Hgas.
  pose proof (reward_total X Out A w0 ts w minimum initial HN HI H0 HW HL HU) as ET. fold (sharing_votes w) in ET.
  assert (HX : wired A w) by (subst w; apply run_wired; assumption).
  destruct (funds_history X Out A w0 ts w HN HW) as (cs & Ec & _).
  assert (Een : f_enterprise (w_funds w) = a_enterprise A).
  { apply FundsProofs.instantiate_ok in HI. destruct HI as (I0 & _ & I2 & _). rewrite Ec. rewrite books_enterprise by exact I0. exact I2. }
  destruct (treasury_history X Out A w0 ts w HN HW) as (tcs & Et & _).
  assert (HLs : lists_ok (w_treasury w)) by (rewrite Et; apply lists_history; apply TreasuryFacts.instantiate_ok in HT; apply HT).
  assert (HP : Permutation.Permutation W (all_assets (w_treasury w))).
  { apply Permutation.NoDup_Permutation; [exact HWn|apply all_assets_NoDup|]. intros a. rewrite HWl, all_assets_In. reflexivity. }
  pose proof (Permutation.Permutation_length HP) as HPl.
  destruct (wi_en _ _ HX) as (_ & att & Hc).
  (* the oracle reads the DAO's own treasury *)
  assert (Ho : forall n x, let w2 := set_ext (note w s (WasmExecute (a_funds A) (ToFunds m) coins)) x in
    let o := funds_oracle_of Out A n w2 in
    pager (all_assets (w_treasury w)) 30 (wl_page (fo_wl o)) /\ wl_fuel (fo_wl o) = n /\ wl_global (fo_wl o) = x_global Out x (en_factory (w_enterprise w))).
  { intros n x w2 o. unfold o, funds_oracle_of. cbn [fo_wl wl_page wl_fuel wl_global]. change (w_funds w2) with (w_funds w). rewrite Een.
    unfold components_by, enterprise_at. rewrite N.eqb_refl. cbn [bind]. change (w_enterprise w2) with (w_enterprise w). unfold query_component_contracts. rewrite Hc. cbn [ok_or bind wiring_of c_treasury].
    unfold treasury_at. rewrite N.eqb_refl. cbn [bind]. change (w_treasury w2) with (w_treasury w). change (w_ext w2) with x. split; [|split; reflexivity].
    exact (query_pages (w_treasury w) None HLs). }
  assert (Hmain : forall n x, (length W <= n)%nat -> let w2 := set_ext (note w s (WasmExecute (a_funds A) (ToFunds m) coins)) x in
    let o := funds_oracle_of Out A n w2 in
    (exists f', funds_execute o (w_funds w) s coins m = Ok (f', [])) <->
    sharing_votes w <> 0 /\ forall a k, In (a, k) given ->
      (listed (w_treasury w) a \/ In a (x_global Out x (en_factory (w_enterprise w)))) /\ per_vote w a + k * DEC / sharing_votes w < 2 ^ 128).
  { intros n x Hn w2 o. destruct (Ho n x) as (Hp & Hfu & Hgl). fold w2 in Hp, Hfu, Hgl. fold o in Hp, Hfu, Hgl. rewrite HPl in Hn. rewrite <- ET. change (2 ^ 128) with M128.
    destruct (whitelist_spec _ 30 _ (wl_global (fo_wl o)) (wl_fuel (fo_wl o)) (map fst given) ltac:(lia) Hp) as (W1 & W2 & _). rewrite Hfu in W2 at 1. specialize (W2 Hn).
    assert (Hincl : incl (map fst given) (all_assets (w_treasury w) ++ wl_global (fo_wl o)) <-> forall a k, In (a, k) given -> listed (w_treasury w) a \/ In a (x_global Out x (en_factory (w_enterprise w)))).
    { rewrite <- Hgl. split.
      - intros Hi a k Hin. apply (in_map fst) in Hin. apply Hi in Hin. apply in_app_iff in Hin. rewrite all_assets_In in Hin. exact Hin.
      - intros Hi a Hin. apply in_map_iff in Hin. destruct Hin as ((a2 & k) & <- & Hin). apply in_app_iff. rewrite all_assets_In. eauto. }
    assert (Hwl : assert_assets_whitelisted (wl_fuel (fo_wl o)) (wl_page (fo_wl o)) (wl_global (fo_wl o)) (map fst given) = Ok tt <->
       forall a k, In (a, k) given -> listed (w_treasury w) a \/ In a (x_global Out x (en_factory (w_enterprise w)))) by (rewrite <- Hincl; split; assumption).
    clear W1 W2 Hincl. destruct HD as [coins|k coins]; cbn [funds_execute].
    - unfold distribute_native. rewrite map_map in Hwl. cbn [fst] in Hwl. rewrite map_map in Hnd. cbn [fst] in Hnd.
      assert (Hnd2 : NoDup (map fst coins)) by (apply (NoDup_map_inv Native); rewrite map_map; exact Hnd).
      split.
      + intros (f' & H). apply bind_ok in H. destruct H as (f2 & H & _). apply bind_ok in H. destruct H as (u & Hw1 & H). destruct u. apply bind_ok in H. destruct H as (u & Hz & H).
        apply guard_ok in Hz. assert (HT0 : f_total (w_funds w) <> 0) by (intros Z; rewrite Z in Hz; discriminate). split; [exact HT0|].
        apply bind_ok in H. destruct H as (r & Hr & _). pose proof (proj1 Hwl Hw1) as Hw2.
        pose proof (proj1 (fold_fits _ _ HT0 Hnd2 _) (ex_intro _ r Hr)) as Hfit. intros a k Hin. split; [exact (Hw2 a k Hin)|].
        apply in_map_iff in Hin. destruct Hin as ((d & k2) & E & Hin). cbn [fst snd] in E. injection E as <- <-. cbn [per_vote]. apply Hfit. exact Hin.
      + intros (HT0 & Hall). rewrite (proj2 Hwl) by (intros a k Hin; apply (Hall a k Hin)). cbn [bind]. replace (f_total (w_funds w) =? 0) with false by lia. cbn [negb guard bind].
        destruct (proj2 (fold_fits (f_total (w_funds w)) coins HT0 Hnd2 (f_native (w_funds w)))) as (r & Hr).
        { intros d k Hin. refine (proj2 (Hall (Native d) k _)). apply (in_map (fun c => (Native (fst c), snd c)) coins (d, k)) in Hin. exact Hin. }
        rewrite Hr. cbn [bind]. eauto.
    - unfold distribute_cw20. cbn [map fst] in Hwl, Hnd.
      assert (Hnd2 : NoDup (map fst [(s, k)])) by (cbn [map fst]; constructor; [auto|constructor]).
      assert (Hone : forall r, fold_res (distribute_one (f_total (w_funds w))) (f_cw20 (w_funds w)) [(s, k)] = Ok r <-> distribute_one (f_total (w_funds w)) (f_cw20 (w_funds w)) (s, k) = Ok r).
      { intros r. cbn [fold_res]. destruct (distribute_one _ _ _); cbn [bind]; reflexivity. }
      split.
      + intros (f' & H). apply bind_ok in H. destruct H as (f2 & H & _). apply bind_ok in H. destruct H as (u & Hw1 & H). destruct u. apply bind_ok in H. destruct H as (u & Hz & H).
        apply guard_ok in Hz. assert (HT0 : f_total (w_funds w) <> 0) by (intros Z; rewrite Z in Hz; discriminate). split; [exact HT0|].
        apply bind_ok in H. destruct H as (r & Hr & _). pose proof (proj1 Hwl Hw1) as Hw2. apply Hone in Hr.
        pose proof (proj1 (fold_fits _ _ HT0 Hnd2 _) (ex_intro _ r Hr)) as Hfit. intros a k2 Hin. split; [exact (Hw2 a k2 Hin)|].
        destruct Hin as [E|[]]. injection E as <- <-. cbn [per_vote]. apply Hfit. left. reflexivity.
      + intros (HT0 & Hall). rewrite (proj2 Hwl) by (intros a k2 Hin; apply (Hall a k2 Hin)). cbn [bind]. replace (f_total (w_funds w) =? 0) with false by lia. cbn [negb guard bind].
        destruct (proj2 (fold_fits (f_total (w_funds w)) [(s, k)] HT0 Hnd2 (f_cw20 (w_funds w)))) as (r & Hr).
        { intros d k2 [E|[]]. injection E as <- <-. refine (proj2 (Hall (Cw20 s) k _)). left. reflexivity. }
        apply Hone in Hr. unfold addr in *. rewrite Hr. cbn [bind]. eauto. }
  split.
  - intros (w' & H). destruct (funds_tx Out A (nd_addrs _ _ HN) _ _ _ _ _ _ _ Hs H) as (n & x & f' & ps & d & -> & Hx & Hf & Hg). exists x. split; [exact Hx|].
    apply (Hmain n x); [lia|]. exists f'. rewrite Hf. do 2 f_equal.
    destruct HD as [coins|k coins]; cbn [funds_execute] in Hf; apply bind_ok in Hf; destruct Hf as (f2 & _ & Hf); inversion Hf; reflexivity.
  - intros (x & Hx & Hall). destruct gas as [|[|n]]; [lia|lia|]. destruct (proj2 (Hmain (S n) x ltac:(lia)) Hall) as (f' & Hf).
    eexists. eapply (funds_tx_back Out A (nd_addrs _ _ HN)); [exact Hs|exact Hx|exact Hf].
Qed.
