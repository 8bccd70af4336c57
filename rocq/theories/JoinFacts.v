(** Anybody can join: in every history. *)
From Verif Require Import Base OMap OMapLemmas Assets PollModel PollSpec PollProofs PollFacts FundsModel FundsSpec FundsProofs FundsFacts MemberModel
  MemberSpec MemberProofs MemberFacts Msgs ControllerModel ControllerSpec TreasuryModel EnterpriseModel
  EnterpriseSpec OutpostsModel WorldModel WorldSpec WorldMember WorldProofs WorldRun WorldFacts LiftFacts RewardSpec RewardProofs RewardFacts
  ExitSpec ExitProofs ExitFacts JoinSpec JoinProofs.

Lemma member_sees X (Out : outside X) A (w : world X) : sees (member_oracle_of Out A w (w_member w)) (x_ics721 Out (w_ext w)) (w_member w).
Proof. unfold sees. destruct (w_member w) as [q|q|q|q]; try exact I. cbn. destruct (ns_contract q); [exact I|reflexivity]. Qed.

Lemma join_goes X (Out : outside X) A w0 ts w minimum initial s coins mm u n e gas : new_dao A w0 ->
  funds_instantiate (a_controller A) (a_enterprise A) minimum initial = Ok (w_funds w0) ->
  w = world_run Out A w0 ts -> timely 0 ts -> lasting w -> calm A w -> undisturbed A w -> free_calls Out -> rewards_fit w ->
  may_join Out A w s coins mm u n -> total_now (w_member w) + n + initial_weights w0 < 2 ^ 128 ->
  last_time ts <= e_time e -> is_dao A s = false -> (7 <= gas)%nat ->
  exists w', world_tx Out A w (mk_tx gas e s (WasmExecute (a_membership A) (ToMembership mm) coins)) = Ok w' /\ joined_dao s mm u n w w'.
Proof.
  intros HN HI HW HT HL HC HU HF HR (y & Hy & Hcall & Hu & Hres & Hfit) Hroom He Hd Hg.
  destruct (standing X Out A w0 ts w minimum initial HN HI HW HT HL HC HU) as (K & (b & Rb & Eb) & Hadm & Hmr & _).
  assert (HF0 : f_admin (w_funds w0) = a_controller A) by (apply initial_weights_unique in HI; apply HI).
  destruct (c_small _ _ _ K) as (Hinv & Htot). pose proof Hinv as [Hs _]. change (2 ^ 128) with M128 in *.
  pose proof (weight_le_total _ u Hs) as Hle. unfold total_now in Hfit, Hroom. cbn [query_total_weight] in Hfit, Hroom.
  set (x := weight_of (w_member w) u + n). assert (Hx : x < M128) by (unfold x, weight_of, member_weight in *; lia).
  assert (Hst : started_by (w_gov w) (e_time e)) by (intros i p Hp; apply (c_started _ _ _ K) in Hp; lia).
  destruct (gas_7 _ Hg) as (g & ->).
  assert (Hsum : wsum (oset (f_eff (w_funds w)) u (effective_weight x (f_min (w_funds w)))) < M128).
  { set (W := m_weights (members_of (w_member w))).
    assert (HB : wsum (oset (f_eff (w_funds w)) u (effective_weight x (f_min (w_funds w)))) <= wsum (oset W u x) + wsum (f_weights (w_funds w0))).
    { apply counted_bound. intros v. unfold ogetN at 1 2. rewrite !oget_oset. destruct (N.eqb_spec u v) as [<-|Hne]; cbn [dflt].
      - unfold effective_weight. destruct (f_min (w_funds w) <=? x); lia.
      - pose proof (eligibility_exact _ v Rb) as E. cbv zeta in E. rewrite Eb in E. rewrite E.
        assert (R : reward_weight w v <= ogetN W v + ogetN (f_weights (w_funds w0)) v).
        { destruct (rewards_follow X Out A w0 ts w v HN HF0 HW HL HU) as [R|(R1 & _)]; [rewrite R; apply N.le_add_r|rewrite R1; apply N.le_add_l]. }
        unfold reward_weight, ogetN in R |- *. unfold ogetN in R. destruct (oget (f_weights (w_funds w)) v) as [z|]; cbn [dflt] in *; [|lia].
        destruct (f_min (w_funds w) <=? z); cbn [dflt]; lia. }
    pose proof (wsum_oset W u x) as HO. change (ogetN W u) with (weight_of (w_member w) u) in HO.
    assert (HT2 : total_weight (members_of (w_member w)) = wsum W) by apply Hs.
    change (initial_weights w0) with (wsum (f_weights (w_funds w0))) in Hroom. unfold x in *. lia. }
  destruct (raising_told Out A (nd_addrs _ _ HN) g w e b s coins mm (after_join (w_member w) e s mm u n) u (weight_of (w_member w) u) x y
    HF (c_wired _ _ _ K) (c_ginv _ _ _ K) Hst Rb Eb HR Hadm Hy) as (w1 & G1 & G2 & G3 & G4 & o & G5); auto.
  { intros w' E1 E2 E3 E4.
    assert (S1 := member_sees X Out A w'). rewrite E1, E4 in S1.
    rewrite (join_accepted _ _ _ e _ _ _ _ _ Hinv S1 Hcall Hu).
    - f_equal. f_equal. unfold report. replace (okeys (m_hooks (members_of (after_join (w_member w) e s mm u n)))) with [a_controller A]; [reflexivity|].
      rewrite <- (c_hooks _ _ _ K). destruct Hcall as [q d k s' user E|q t k v cs E|q c k v cs D1 D2]; cbn [after_join members_of]; try reflexivity.
    - cbn [member_oracle_of mo_restricted]. rewrite (c_ent _ _ _ K). unfold restricted_by, enterprise_at in *. cbn [w_enterprise w_ext set_ext] in Hres. rewrite E2, E4. exact Hres.
    - exact Hfit. }
  exists w1. split.
  { unfold world_tx. cbn [tx_gas tx_env tx_signer tx_msg]. rewrite Hd. cbn [negb guard bind]. rewrite G1. reflexivity. }
  split.
  - rewrite G3. eapply after_joined. exact Hcall.
  - exact G2.
  - apply funds_weights in G5. destruct G5 as (_ & _ & G5). intros v. unfold reward_weight, ogetN. rewrite (G5 v). unfold last_weight. cbn [fold_left fst snd].
    rewrite (N.eqb_sym u v). destruct (v =? u); reflexivity.
  - rewrite <- Eb in G5. intros v a. rewrite (proj2 (weights_keep_rewards b o _ _ _ _ _ Rb G5)). rewrite Eb. reflexivity.
  - destruct (update_votes_spec (w_gov w) e u x (c_ginv _ _ _ K) Hx Hu Hst) as (g' & Q1 & Q2 & Q3). rewrite Q1 in G4. injection G4 as <-.
    intros v id. destruct (N.eq_dec v u) as [->|Hne]; [|rewrite Q2 by exact Hne; reflexivity]. rewrite Q3. destruct (get_vote (w_gov w) u id) as [z|]; [|reflexivity].
    destruct (opened _ _ _); reflexivity.
  - destruct (update_votes_spec (w_gov w) e u x (c_ginv _ _ _ K) Hx Hu Hst) as (g' & Q1 & Q2 & Q3). rewrite Q1 in G4. injection G4 as <-.
    intros v id Hne. apply Q2. exact Hne.
Qed.

Lemma join_needs X (Out : outside X) A w0 ts w s coins mm e gas w' : new_dao A w0 ->
  w = world_run Out A w0 ts -> timely 0 ts -> lasting w -> calm A w -> stakes_by mm = true -> s <> 0 ->
  world_tx Out A w (mk_tx gas e s (WasmExecute (a_membership A) (ToMembership mm) coins)) = Ok w' ->
  exists u n, may_join Out A w s coins mm u n.
Proof.
  intros HN HW HT HL HC Hm Hs0 H. assert (K : core A (last_time ts) w) by (subst w; apply (run_facts X Out A w0 ts HN HT HL HC)).
  destruct (c_small _ _ _ K) as (Hinv & Htot). pose proof (nd_addrs _ _ HN) as HA.
  unfold world_tx in H. cbn [tx_gas tx_env tx_signer tx_msg] in H. apply bind_ok in H. destruct H as (? & _ & H). apply bind_ok in H. destruct H as ((w1, d) & H & _).
  destruct gas as [|g]; [discriminate|]. cbn [WorldModel.go] in H. apply bind_ok in H. destruct H as (y & Hy & H).
  change (w_ext (note w s (WasmExecute (a_membership A) (ToMembership mm) coins))) with (w_ext w) in Hy.
  set (w2 := set_ext (note w s (WasmExecute (a_membership A) (ToMembership mm) coins)) y) in *.
  apply bind_ok in H. destruct H as (((w3, subs), d3) & H & _). unfold WorldModel.handle in H.
  replace (a_membership A =? a_controller A) with false in H by (symmetry; apply N.eqb_neq; intros E; pose proof (apart A HA) as HH; decompose [and] HH; congruence).
  replace (a_membership A =? a_governance A) with false in H by (symmetry; apply N.eqb_neq; intros E; pose proof (apart A HA) as HH; decompose [and] HH; congruence).
  rewrite N.eqb_refl in H. apply bind_ok in H. destruct H as ((st, outs) & H & _).
  change (w_member w2) with (w_member w) in H.
  assert (S1 := member_sees X Out A w2). change (w_member w2) with (w_member w) in S1. change (w_ext w2) with y in S1.
  destruct (join_only _ _ _ _ _ _ _ _ _ Hinv S1 Hm H) as (u & n & J1 & J2 & J3 & J4 & _).
  exists u, n, y. split; [exact Hy|]. split; [exact J1|]. split; [destruct J2 as [J2| ->]; assumption|]. split; [|exact J4].
  cbn [member_oracle_of mo_restricted] in J3. rewrite (c_ent _ _ _ K) in J3. exact J3.
Qed.
