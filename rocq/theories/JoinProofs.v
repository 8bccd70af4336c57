(** Anybody can join: proofs. *)
From Verif Require Import Base OMap OMapLemmas Assets PollModel PollSpec PollProofs PollFacts FundsModel FundsSpec FundsProofs FundsFacts MemberModel
  MemberSpec MemberProofs MemberFacts Msgs ControllerModel ControllerSpec TreasuryModel EnterpriseModel
  EnterpriseSpec OutpostsModel WorldModel WorldSpec WorldMember WorldProofs WorldRun WorldFacts LiftFacts RewardSpec RewardProofs RewardFacts
  ExitSpec ExitProofs ExitFacts JoinSpec.

(** * The membership contract *)

Lemma uint_add_ok a b c : uint_add a b = Ok c <-> c = a + b /\ a + b < M128.
Proof.
  unfold uint_add. destruct (N.ltb_spec (a + b) M128); split.
  - intros H1. injection H1 as <-. auto.
  - intros (-> & _). reflexivity.
  - discriminate.
  - intros (_ & H1). lia.
Qed.

Definition grown (m : members) (e : env) (u n : N) : members :=
  save_total_weight (set_member_weight m u (member_weight m u + n)) e (total_weight m + n).

Lemma grow_ok m e u n r : sum_ok m ->
  ('(m1, new) <- increment_member_weight m u n ;; m2 <- increment_total_weight m1 e n ;; Ok (m2, new)) = Ok r <->
  total_weight m + n < M128 /\ r = (grown m e u n, member_weight m u + n).
Proof.
  intros Hs. pose proof (weight_le_total m u Hs) as Hle. unfold increment_member_weight, increment_total_weight. split.
  - intros H. apply bind_ok in H. destruct H as ((m1, new) & H1 & H). apply bind_ok in H1. destruct H1 as (x & H1 & H1'). injection H1' as <- <-.
    apply uint_add_ok in H1. destruct H1 as (-> & H1). apply bind_ok in H. destruct H as (m2 & H2 & H). injection H as <-.
    apply bind_ok in H2. destruct H2 as (t & H2 & H2'). injection H2' as <-. apply uint_add_ok in H2. destruct H2 as (-> & H2).
    split; [exact H2|reflexivity].
  - intros (H1 & ->). destruct (uint_add_ok (member_weight m u) n (member_weight m u + n)) as (_ & E1). rewrite E1 by lia. cbn [bind].
    change (total_weight (set_member_weight m u (member_weight m u + n))) with (total_weight m).
    destruct (uint_add_ok (total_weight m) n (total_weight m + n)) as (_ & E2). rewrite E2 by lia. reflexivity.
Qed.

Lemma add_stake_ok s e u n r : sum_ok (st_members s) ->
  add_stake s e u n = Ok r <->
  total_weight (st_members s) + n < M128 /\
  r = (st_with_members s (grown (st_members s) e u n), report (grown (st_members s) e u n) [mk_change u (member_weight (st_members s) u) (member_weight (st_members s) u + n)]).
Proof.
  intros Hs. unfold add_stake. split.
  - intros H. apply bind_ok in H. destruct H as ((m1, new) & H1 & H). apply bind_ok in H. destruct H as (m2 & H2 & H). injection H as <-.
    destruct (proj1 (grow_ok (st_members s) e u n (m2, new) Hs)) as (Q1 & Q2); [rewrite H1; cbn [bind]; rewrite H2; reflexivity|].
    injection Q2 as -> ->. auto.
  - intros (H & ->). pose proof (proj2 (grow_ok (st_members s) e u n _ Hs) (conj H eq_refl)) as Q.
    apply bind_ok in Q. destruct Q as ((m1, new) & H1 & Q). apply bind_ok in Q. destruct Q as (m2 & H2 & Q). injection Q as -> ->.
    rewrite H1. cbn [bind]. rewrite H2. reflexivity.
Qed.

Lemma grown_weights m e u n v : ogetN (m_weights (grown m e u n)) v = if v =? u then ogetN (m_weights m) u + n else ogetN (m_weights m) v.
Proof. cbn. unfold ogetN. rewrite oget_oset, (N.eqb_sym u v). destruct (v =? u); reflexivity. Qed.

Lemma not_restricted_ok o u x : not_restricted o u = Ok x <-> mo_restricted o u = Ok false.
Proof.
  unfold not_restricted. destruct x. split.
  - intros H. apply bind_ok in H. destruct H as (r & H & G). apply guard_ok in G. destruct r; [discriminate|exact H].
  - intros ->. reflexivity.
Qed.
Lemma valid_ok u v : addr_validate u = Ok v <-> v = u /\ u <> 0.
Proof.
  unfold addr_validate. destruct (N.eqb_spec u 0); split; try discriminate.
  - intros (_ & H). congruence.
  - intros H. injection H as <-. auto.
  - intros (-> & _). reflexivity.
Qed.

(** the NFT contract, when [c] is its collection *)
Definition nft_joined (q : nft_staking) (e : env) (c k u : N) : nft_staking :=
  ns_with_members (ns_with_stakes (match ns_contract q with NCw721 _ => q | NIcs721 _ _ => ns_with_contract q (NCw721 c) end) (oset (ns_stakes q) k u)) (grown (ns_members q) e u 1).

Lemma stake_nft_ok o q e k u r : sum_ok (ns_members q) ->
  stake_nft o q e k u = Ok r <->
  mo_restricted o u = Ok false /\ oget (ns_stakes q) k = None /\ u <> 0 /\ total_weight (ns_members q) + 1 < M128 /\
  r = (ns_with_members (ns_with_stakes q (oset (ns_stakes q) k u)) (grown (ns_members q) e u 1),
       report (grown (ns_members q) e u 1) [mk_change u (member_weight (ns_members q) u) (member_weight (ns_members q) u + 1)]).
Proof.
  intros Hs. unfold stake_nft. split.
  - intros H. apply bind_ok in H. destruct H as (? & H1 & H). apply not_restricted_ok in H1. apply bind_ok in H. destruct H as (? & H2 & H). apply guard_ok in H2.
    apply bind_ok in H. destruct H as (v & H3 & H). apply valid_ok in H3. destruct H3 as (-> & H3). cbn [ns_with_stakes ns_members] in H.
    apply bind_ok in H. destruct H as ((m1, new) & H4 & H). apply bind_ok in H. destruct H as (m2 & H5 & H). injection H as <-.
    destruct (proj1 (grow_ok (ns_members q) e u 1 (m2, new) Hs)) as (Q1 & Q2); [rewrite H4; cbn [bind]; rewrite H5; reflexivity|]. injection Q2 as -> ->.
    split; [exact H1|]. split; [unfold ohas in H2; destruct (oget (ns_stakes q) k); [discriminate|reflexivity]|]. auto.
  - intros (H1 & H2 & H3 & H4 & ->). rewrite (proj2 (not_restricted_ok o u tt) H1). cbn [bind]. unfold ohas. rewrite H2. cbn [guard is_some negb bind].
    rewrite (proj2 (valid_ok u u) (conj eq_refl H3)). cbn [bind ns_with_stakes ns_members].
    pose proof (proj2 (grow_ok (ns_members q) e u 1 _ Hs) (conj H4 eq_refl)) as Q.
    apply bind_ok in Q. destruct Q as ((m1, new) & Q1 & Q). apply bind_ok in Q. destruct Q as (m2 & Q2 & Q). injection Q as -> ->.
    rewrite Q1. cbn [bind]. rewrite Q2. reflexivity.
Qed.

Definition sees (o : member_oracle) (found : addr -> N -> res (option addr)) (st : member_state) : Prop :=
  match st with MNft q => match ns_contract q with NIcs721 p c => mo_ics721 o = found p c | NCw721 _ => True end | _ => True end.

(** the new state, and what is told *)
Definition after_join (st : member_state) (e : env) (s : addr) (mm : member_msg) (u n : N) : member_state :=
  match st, mm with
  | MDenom q, _ => MDenom (st_with_members q (grown (st_members q) e u n))
  | MToken q, _ => MToken (st_with_members q (grown (st_members q) e u n))
  | MNft q, NftMsg (NReceive k _) => MNft (nft_joined q e s k u)
  | st, _ => st
  end.

Lemma join_accepted o found st e s coins mm u n : MemberProofs.inv st -> sees o found st -> staking_call found st s coins mm u n -> u <> 0 ->
  mo_restricted o u = Ok false -> total_weight (members_of st) + n < M128 ->
  member_execute o st e s coins mm =
    Ok (after_join st e s mm u n, report (members_of (after_join st e s mm u n)) [mk_change u (weight_of st u) (weight_of st u + n)]).
Proof.
  intros [Hs _] Hf Hc Hu Hr Ht. destruct Hc as [q d n s user E|q t n u coins E|q c k u coins E1 E2]; cbn [members_of] in *; cbn [member_execute].
  - cbn [denom_execute]. unfold stake_denom. rewrite E. cbn [asset_eqb]. rewrite N.eqb_refl. cbn [guard bind].
    destruct user as [v|].
    + rewrite (proj2 (valid_ok v v) (conj eq_refl Hu)). cbn [bind]. rewrite (proj2 (not_restricted_ok o v tt) Hr). cbn [bind].
      rewrite (proj2 (add_stake_ok q e v n _ Hs) (conj Ht eq_refl)). reflexivity.
    + cbn [bind]. rewrite (proj2 (not_restricted_ok o s tt) Hr). cbn [bind]. rewrite (proj2 (add_stake_ok q e s n _ Hs) (conj Ht eq_refl)). reflexivity.
  - cbn [token_execute]. unfold token_receive. rewrite E. cbn [asset_eqb]. rewrite N.eqb_refl. cbn [guard bind]. unfold stake_token.
    rewrite (proj2 (not_restricted_ok o u tt) Hr). cbn [bind]. rewrite (proj2 (valid_ok u u) (conj eq_refl Hu)). cbn [bind].
    rewrite (proj2 (add_stake_ok q e u n _ Hs) (conj Ht eq_refl)). reflexivity.
  - cbn [nft_execute]. unfold receive_nft. unfold sees in Hf. cbn [after_join]. unfold nft_joined.
    destruct (ns_contract q) as [a|p cl] eqn:EC; cbn [collection_of] in E1.
    + subst a. cbn [bind]. rewrite N.eqb_refl. cbn [guard bind]. rewrite (proj2 (stake_nft_ok o q e k u _ Hs)) by auto. reflexivity.
    + rewrite Hf, E1. cbn [bind ok_or]. rewrite N.eqb_refl. cbn [guard bind].
      rewrite (proj2 (stake_nft_ok o (ns_with_contract q (NCw721 c)) e k u _ Hs)) by auto. reflexivity.
Qed.

Lemma join_only o found st e s coins mm st' outs : MemberProofs.inv st -> sees o found st -> stakes_by mm = true ->
  member_execute o st e s coins mm = Ok (st', outs) ->
  exists u n, staking_call found st s coins mm u n /\ (u <> 0 \/ u = s) /\ mo_restricted o u = Ok false /\ total_weight (members_of st) + n < M128 /\
    outs = report (members_of st') [mk_change u (weight_of st u) (weight_of st u + n)].
Proof.
  intros [Hs _] Hf Hm H. destruct st as [q|q|q|q], mm as [mm|mm|mm|mm]; cbn [member_execute] in H; try discriminate; cbn [members_of] in *.
  - destruct mm as [n h|mm]; [|discriminate]. destruct h as [u| | |]; try discriminate. cbn [token_execute] in H. unfold token_receive in H.
    apply bind_ok in H. destruct H as ((q', os) & H & HE). injection HE as <- <-.
    apply bind_ok in H. destruct H as (? & H1 & H). apply guard_ok in H1. unfold stake_token in H. apply bind_ok in H. destruct H as (? & H2 & H). apply not_restricted_ok in H2.
    apply bind_ok in H. destruct H as (v & H3 & H). apply valid_ok in H3. destruct H3 as (-> & H3). apply (add_stake_ok _ _ _ _ _ Hs) in H. destruct H as (H4 & H). injection H as -> ->.
    exists u, n. split; [|split; [left; exact H3|split; [exact H2|split; [exact H4|reflexivity]]]]. destruct (st_asset q) as [d|t|t i] eqn:E; try discriminate. cbn [asset_eqb] in H1. apply N.eqb_eq in H1. subst t.
    apply J_token. exact E.
  - destruct mm as [user|mm]; [|discriminate]. cbn [denom_execute] in H. unfold stake_denom in H.
    apply bind_ok in H. destruct H as ((q', os) & H & HE). injection HE as <- <-.
    destruct coins as [|(d, n) [|]]; try discriminate. apply bind_ok in H. destruct H as (? & H1 & H). apply guard_ok in H1.
    apply bind_ok in H. destruct H as (v & H3 & H). apply bind_ok in H. destruct H as (? & H2 & H). apply not_restricted_ok in H2.
    apply (add_stake_ok _ _ _ _ _ Hs) in H. destruct H as (H4 & H). injection H as -> ->.
    assert (V : v = match user with Some v => v | None => s end /\ (v <> 0 \/ v = s)).
    { destruct user; [apply valid_ok in H3; destruct H3 as (-> & H3); auto|injection H3 as <-; auto]. }
    destruct V as (V1 & V2). exists v, n. split; [|split; [exact V2|split; [exact H2|split; [exact H4|reflexivity]]]].
    destruct (st_asset q) as [d'|t|t i] eqn:E; try discriminate. cbn [asset_eqb] in H1. apply N.eqb_eq in H1. subst d' v. apply J_denom. exact E.
  - destruct mm as [k h| | | | |]; try discriminate. destruct h as [u| |]; try discriminate. cbn [nft_execute] in H. unfold receive_nft in H.
    apply bind_ok in H. destruct H as ((q', os) & H & HE). injection HE as <- <-.
    apply bind_ok in H. destruct H as ((q1, c) & H0 & H). apply bind_ok in H. destruct H as (? & H1 & H). apply guard_ok in H1. apply N.eqb_eq in H1. subst c.
    assert (C : collection_of found (ns_contract q) s /\ ns_members q1 = ns_members q /\ ns_stakes q1 = ns_stakes q).
    { unfold sees in Hf. destruct (ns_contract q) as [a|p cl] eqn:EC; cbn [collection_of].
      - injection H0 as -> ->. auto.
      - apply bind_ok in H0. destruct H0 as (f & F1 & H0). apply bind_ok in H0. destruct H0 as (a & F2 & H0). injection H0 as <- ->.
        rewrite Hf in F1. destruct f as [f|]; [|discriminate]. injection F2 as ->. auto. }
    destruct C as (C1 & C2 & C3). rewrite <- C2 in Hs. apply (stake_nft_ok _ _ _ _ _ _ Hs) in H. destruct H as (G1 & G2 & G3 & G4 & H). injection H as -> ->.
    exists u, 1. rewrite C3 in G2. rewrite C2 in G4. split; [apply J_nft; assumption|]. split; [left; exact G3|]. split; [exact G1|]. split; [exact G4|].
    unfold weight_of. cbn [members_of]. rewrite C2. reflexivity.
Qed.

Lemma after_joined found st e s coins mm u n : staking_call found st s coins mm u n -> joined s mm u n st (after_join st e s mm u n).
Proof.
  intros H. destruct H as [q d n s user E|q t n u coins E|q c k u coins E1 E2]; cbn [after_join].
  - split; [intros v; apply grown_weights|reflexivity|split; reflexivity|repeat split].
  - split; [intros v; apply grown_weights|reflexivity|split; reflexivity|repeat split].
  - unfold nft_joined. split; [intros v; apply grown_weights|reflexivity|split; reflexivity|].
    destruct (ns_contract q) eqn:EC; cbn [ns_with_members ns_with_stakes ns_with_contract ns_stakes ns_contract ns_period ns_next_claim ns_claims];
      (split; [intros j; rewrite oget_oset, (N.eqb_sym k j); reflexivity|]); [|repeat split].
    cbn [collection_of] in E1. subst c. auto.
Qed.

(** * The funds distributor *)

Lemma raise_defined b o coins u x : reachable b -> let f := b_funds b in (forall u a, exists n, claimable f u a = Ok n) -> u <> 0 ->
  wsum (oset (f_eff f) u (effective_weight x (f_min f))) < M128 ->
  exists f', funds_execute o f (f_admin f) coins (FUpdateUserWeights [(u, x)]) = Ok (f', []).
Proof.
  intros Hr f Hc Hu Hx. destruct (reachable_solvent b Hr) as (Hok & _). fold f in Hok.
  pose proof Hok as (Ht & He & Hn & Hcw). cbn [funds_execute]. unfold update_user_weights. rewrite N.eqb_refl. cbn [guard bind fold_res].
  destruct (update_weight_one_defined f f (f_total f) u x (evolved_refl f Ht Hn Hcw) He) as (f1 & t1 & H1 & _).
  - intros v a. destruct (Hc v a) as (n & E). apply (claimable_ok f v a n Hok E).
  - exact Hu.
  - exact Hx.
  - rewrite H1. cbn [bind]. eauto.
Qed.

(** the weights that count are bounded by what each user has *)
Lemma counted_bound (m W I : omap N) : (forall v, ogetN m v <= ogetN W v + ogetN I v) -> wsum m <= wsum W + wsum I.
Proof.
  intros H. unfold wsum at 1. unfold osum. etransitivity; [|apply N.add_le_mono; apply (distinct_sum _ (okeys m) (okeys_NoDup m))].
  rewrite <- lsum_add. unfold okeys. rewrite lsum_map. apply lsum_le_in. intros (k, v) Hi. cbn [fst snd]. apply oget_In in Hi. specialize (H k). unfold ogetN in H at 1. rewrite Hi in H. exact H.
Qed.

(** * Delivery, forwards *)

Section J.
Context {X : Type} (Out : outside X) (A : addrs) (HA : NoDup (dao_addrs A)).
Notation go := (WorldModel.go Out A).
Notation handle := (WorldModel.handle Out A).

Ltac other := symmetry; apply N.eqb_neq; let E := fresh in intros E; let HH := fresh in pose proof (apart A HA) as HH; decompose [and] HH; congruence.

Lemma votes_raised n w e u x : free_calls Out -> g_admin (w_gov w) = a_controller A -> PollProofs.inv (w_gov w) -> started_by (w_gov w) (e_time e) ->
  x < M128 -> u <> 0 ->
  exists w1, go (S (S n)) w e (JMsg (a_controller A) (WasmExecute (a_governance A) (ToGovernance (GUpdateVotes u x)) [])) = Ok (w1, None) /\
    untold w w1 /\ w_funds w1 = w_funds w /\ update_votes (w_gov w) e u x = Ok (w_gov w1).
Proof.
  intros HF Ha Hi Hs Hx Hu. destruct (HF (w_ext w) (a_controller A) (a_governance A)) as (x' & Hp).
  destruct (update_votes_spec (w_gov w) e u x Hi Hx Hu Hs) as (g' & Hg & _ & _).
  exists (set_gov (set_ext (note w (a_controller A) (WasmExecute (a_governance A) (ToGovernance (GUpdateVotes u x)) [])) x') g'). split; [|split; [|split]].
  - eapply go_send; [exact Hp| |apply go_done]. unfold WorldModel.handle.
    replace (a_governance A =? a_controller A) with false by other. rewrite N.eqb_refl.
    change (w_gov (set_ext (note w (a_controller A) _) x')) with (w_gov w). unfold gov_execute. rewrite Ha, N.eqb_refl. cbn [guard bind]. rewrite Hg. reflexivity.
  - repeat split.
  - reflexivity.
  - exact Hg.
Qed.

Lemma funds_raised n w e b u x : free_calls Out -> reachable b -> b_funds b = w_funds w -> rewards_fit w -> f_admin (w_funds w) = a_controller A ->
  u <> 0 -> wsum (oset (f_eff (w_funds w)) u (effective_weight x (f_min (w_funds w)))) < M128 ->
  exists w1, go (S (S n)) w e (JMsg (a_controller A) (WasmExecute (a_funds A) (ToFunds (FUpdateUserWeights [(u, x)])) [])) = Ok (w1, None) /\
    untold w w1 /\ w_gov w1 = w_gov w /\ exists o, funds_execute o (w_funds w) (a_controller A) [] (FUpdateUserWeights [(u, x)]) = Ok (w_funds w1, []).
Proof.
  intros HF Hr Eb Hc Ha Hu Hx. destruct (HF (w_ext w) (a_controller A) (a_funds A)) as (x' & Hp).
  set (w2 := set_ext (note w (a_controller A) (WasmExecute (a_funds A) (ToFunds (FUpdateUserWeights [(u, x)])) [])) x').
  rewrite <- Eb in Hx. unfold rewards_fit in Hc. rewrite <- Eb in Hc.
  destruct (raise_defined b (funds_oracle_of Out A (S n) w2) [] u x Hr Hc Hu Hx) as (f' & Hf). rewrite Eb in Hf. rewrite Ha in Hf.
  exists (set_funds w2 f'). split; [|split; [|split]].
  - eapply go_send; [exact Hp| |apply go_done]. fold w2. unfold WorldModel.handle.
    replace (a_funds A =? a_controller A) with false by other.
    replace (a_funds A =? a_governance A) with false by other.
    replace (a_funds A =? a_membership A) with false by other.
    replace (a_funds A =? a_council A) with false by other.
    rewrite N.eqb_refl. change (w_funds w2) with (w_funds w). rewrite Hf. reflexivity.
  - repeat split.
  - reflexivity.
  - exists (funds_oracle_of Out A (S n) w2). exact Hf.
Qed.

(** governance and distributor have heard *)
Definition heard (w w' : world X) (e : env) (u x : N) : Prop :=
  update_votes (w_gov w) e u x = Ok (w_gov w') /\ exists o, funds_execute o (w_funds w) (a_controller A) [] (FUpdateUserWeights [(u, x)]) = Ok (w_funds w', []).

Lemma report_raised n w e b u old x : free_calls Out -> wired A w -> PollProofs.inv (w_gov w) -> started_by (w_gov w) (e_time e) ->
  reachable b -> b_funds b = w_funds w -> rewards_fit w -> f_admin (w_funds w) = a_controller A ->
  x < M128 -> u <> 0 -> wsum (oset (f_eff (w_funds w)) u (effective_weight x (f_min (w_funds w)))) < M128 ->
  exists w1, go (S (S (S (S (S n))))) w e (JMsg (a_membership A) (WasmExecute (a_controller A) (ToController (CWeightsChanged [mk_change u old x])) [])) = Ok (w1, None) /\
    untold w w1 /\ heard w w1 e u x.
Proof.
  intros HF HW Hi Hs Hr Eb Hc Ha Hx Hu Hl. destruct (HF (w_ext w) (a_membership A) (a_controller A)) as (x' & Hp).
  set (w2 := set_ext (note w (a_membership A) (WasmExecute (a_controller A) (ToController (CWeightsChanged [mk_change u old x])) [])) x').
  assert (Q : exists att, co_components (ctl_oracle_of Out A w2) = Ok (wiring_of A att)).
  { apply (wired_components Out). apply (note_wired A) with (s := a_membership A) (m := WasmExecute (a_controller A) (ToController (CWeightsChanged [mk_change u old x])) []) in HW.
    destruct HW as ([H1 H2 H3 H4 H5] & _). split; assumption. }
  destruct Q as (att & Q).
  assert (Hg : g_admin (w_gov w2) = a_controller A) by apply (wi_admin _ _ HW).
  set (w3 := set_ctl w2 (w_ctl w)).
  destruct (votes_raised (S n) w3 e u x HF Hg Hi Hs Hx Hu) as (w4 & G4 & U4 & F4 & V4).
  assert (Eb4 : b_funds b = w_funds w4) by (rewrite F4; exact Eb).
  assert (Hc4 : rewards_fit w4) by (unfold rewards_fit; rewrite F4; exact Hc).
  assert (Ha4 : f_admin (w_funds w4) = a_controller A) by (rewrite F4; exact Ha).
  assert (Hl4 : wsum (oset (f_eff (w_funds w4)) u (effective_weight x (f_min (w_funds w4)))) < M128) by (rewrite F4; exact Hl).
  destruct (funds_raised n w4 e b u x HF Hr Eb4 Hc4 Ha4 Hu Hl4) as (w5 & G5 & U5 & V5 & o & O5).
  exists w5. split; [|split].
  - eapply go_send; [exact Hp| |].
    + fold w2. unfold WorldModel.handle. rewrite N.eqb_refl. cbn [ctl_execute]. unfold weights_changed. rewrite Q. cbn [bind wiring_of Msgs.c_council c_membership].
      replace (a_membership A =? a_council A) with false by other. rewrite N.eqb_refl. cbn [guard bind]. reflexivity.
    + change (w_ctl w2) with (w_ctl w). fold w3. cbn [map app wc_user wc_new wiring_of c_governance c_funds].
      rewrite (go_plain Out A _ _ _ _ _ _ _ _ G4). rewrite (go_plain Out A _ _ _ _ _ _ _ _ G5). apply go_done.
  - destruct U4 as ((?&?&?&?&?&?) & ?), U5 as ((?&?&?&?&?&?) & ?). unfold untold, rest_same in *. repeat split; etransitivity; try eassumption; assumption.
  - split; [rewrite V5; exact V4|]. exists o. rewrite F4 in O5. exact O5.
Qed.

Lemma raising_told n w e b s coins mm st u old x y : free_calls Out -> wired A w -> PollProofs.inv (w_gov w) -> started_by (w_gov w) (e_time e) ->
  reachable b -> b_funds b = w_funds w -> rewards_fit w -> f_admin (w_funds w) = a_controller A ->
  x_pay Out (w_ext w) s (a_membership A) coins = Ok y ->
  (forall w', w_member w' = w_member w -> w_enterprise w' = w_enterprise w -> w_treasury w' = w_treasury w -> w_ext w' = y ->
     member_execute (member_oracle_of Out A w' (w_member w)) (w_member w) e s coins mm = Ok (st, [OReport (a_controller A) [mk_change u old x]])) ->
  x < M128 -> u <> 0 -> wsum (oset (f_eff (w_funds w)) u (effective_weight x (f_min (w_funds w)))) < M128 ->
  exists w1, go (S (S (S (S (S (S (S n))))))) w e (JMsg s (WasmExecute (a_membership A) (ToMembership mm) coins)) = Ok (w1, None) /\
    rest_same w w1 /\ w_member w1 = st /\ heard w w1 e u x.
Proof.
  intros HF HW Hi Hs Hr Eb Hc Ha Hy Hm Hx Hu Hl.
  set (w2 := set_ext (note w s (WasmExecute (a_membership A) (ToMembership mm) coins)) y).
  assert (HW2 : wired A (set_member w2 st)).
  { apply (note_wired A) with (s := s) (m := WasmExecute (a_membership A) (ToMembership mm) coins) in HW. destruct HW as ([H1 H2 H3 H4 H5] & _). split; assumption. }
  destruct (report_raised n (set_member w2 st) e b u old x HF HW2 Hi Hs Hr Eb Hc Ha Hx Hu Hl) as (w3 & G3 & (U1 & U2) & U3).
  exists w3. split; [|split; [exact U1|split; [exact U2|exact U3]]].
  eapply go_send; [exact Hy| |].
  - fold w2. unfold WorldModel.handle. replace (a_membership A =? a_controller A) with false by other.
    replace (a_membership A =? a_governance A) with false by other. rewrite N.eqb_refl. change (w_member w2) with (w_member w).
    rewrite Hm by reflexivity. cbn [bind]. reflexivity.
  - cbn [map member_sub]. rewrite (go_plain Out A _ _ _ _ _ _ _ _ G3). apply go_done.
Qed.
End J.
