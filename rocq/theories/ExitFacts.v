(** Members can always leave: in every history. *)
From Verif Require Import Base OMap OMapLemmas Assets PollModel PollSpec PollProofs PollFacts FundsModel FundsSpec FundsProofs FundsFacts MemberModel
  MemberSpec MemberProofs MemberFacts Msgs ControllerModel ControllerSpec TreasuryModel EnterpriseModel
  EnterpriseSpec OutpostsModel WorldModel WorldSpec WorldMember WorldProofs WorldRun WorldFacts LiftFacts RewardSpec RewardProofs RewardFacts
  LedgerSpec LedgerProofs LedgerFacts ExitSpec ExitProofs.

Lemma standing X (Out : outside X) A w0 ts w minimum initial : new_dao A w0 ->
  funds_instantiate (a_controller A) (a_enterprise A) minimum initial = Ok (w_funds w0) ->
  w = world_run Out A w0 ts -> timely 0 ts -> lasting w -> calm A w -> undisturbed A w ->
  core A (last_time ts) w /\ (exists b, reachable b /\ b_funds b = w_funds w) /\ f_admin (w_funds w) = a_controller A /\
  member_reachable (w_member w) /\
  forall u x, weights_covered w0 u -> x <= weight_of (w_member w) u ->
    x < M128 /\ effective_weight x (f_min (w_funds w)) <= ogetN (f_eff (w_funds w)) u.
Proof.
  intros HN HI HW HT HL HC HU.
  assert (HF : f_admin (w_funds w0) = a_controller A) by (apply initial_weights_unique in HI; apply HI).
  assert (K : core A (last_time ts) w) by (subst w; apply (run_facts X Out A w0 ts HN HT HL HC)).
  destruct (funds_history X Out A w0 ts w HN HW) as (cs & Ec & _).
  assert (R : reachable (books_run (w_funds w0) cs)) by (repeat eexists; exact HI).
  split; [exact K|]. split; [exists (books_run (w_funds w0) cs); split; [exact R|symmetry; exact Ec]|]. split; [rewrite Ec, books_admin; exact HF|]. split.
  { destruct (membership_history X Out A w0 ts w HN HW) as (css & _ & Em & _). destruct (nd_membership _ _ HN) as (e & i & Hi).
    rewrite Em. exists e, i, (w_member w0), (concat css). auto. }
  intros u x Hc Hx.
  assert (E : weight_of (w_member w) u <= reward_weight w u).
  { unfold weights_covered in Hc. destruct (rewards_follow X Out A w0 ts w u HN HF HW HL HU) as [E|(E1 & E2)]; lia. }
  split.
  - pose proof (c_small _ _ _ K) as ((Hs & _) & Ht). pose proof (weight_le_total _ u Hs) as Hle. unfold weight_of, member_weight in *. lia.
  - pose proof (eligibility_exact _ u R) as H. cbv zeta in H. rewrite <- Ec in H. unfold reward_weight, ogetN in *. rewrite H.
    unfold effective_weight. destruct (oget (f_weights (w_funds w)) u) as [y|]; cbn [dflt] in E.
    + destruct (f_min (w_funds w) <=? x) eqn:G1, (f_min (w_funds w) <=? y) eqn:G2; cbn; lia.
    + assert (x = 0) by lia. subst x. destruct (f_min (w_funds w) <=? 0); cbn; lia.
Qed.

(** what the membership contract does with an unstaking it can serve *)
Lemma unstake_accepted st s e u a c : member_reachable st -> fungible st s -> a <= weight_of st u -> unlockable e (st_period s) (st_next_claim s) ->
  okeys (m_hooks (members_of st)) = [c] ->
  exists st', forall o, member_execute o st e u [] (unstaking st a) = Ok (st', [OReport c [mk_change u (weight_of st u) (weight_of st u - a)]]).
Proof.
  intros Hr Hf Ha (Hn & Hp) Hh.
  assert (Em : members_of st = st_members s) by (destruct Hf as [-> | ->]; reflexivity).
  apply reachable_inv in Hr. destruct Hr as [Hs _]. rewrite Em in Hs. pose proof (weight_le_total _ u Hs) as Hw.
  unfold weight_of in *. rewrite Em in *. fold (member_weight (st_members s) u) in Ha. fold (member_weight (st_members s) u).
  assert (G : exists s1, unstake s e u a = Ok (s1, [OReport c [mk_change u (member_weight (st_members s) u) (member_weight (st_members s) u - a)]])).
  { unfold unstake. assert (E1 : a <=? member_weight (st_members s) u = true) by (apply N.leb_le; assumption).
    rewrite E1. cbn [guard bind]. unfold decrement_member_weight, uint_sub. rewrite E1. cbn [bind].
    unfold decrement_total_weight, uint_sub.
    assert (E2 : a <=? total_weight (set_member_weight (st_members s) u (member_weight (st_members s) u - a)) = true).
    { apply N.leb_le. change (total_weight _) with (total_weight (st_members s)). lia. }
    rewrite E2. cbn [bind]. rewrite release_total by assumption. cbn [bind]. unfold add_claim, uint64_add. cbn [st_with_members st_next_claim].
    assert (E3 : st_next_claim s + 1 <? M64 = true) by (apply N.ltb_lt; exact Hn). rewrite E3. cbn [bind].
    eexists. f_equal. f_equal. unfold report. change (okeys (m_hooks _)) with (okeys (m_hooks (st_members s))). rewrite Hh. reflexivity. }
  destruct G as (s1 & G). unfold unstaking. destruct Hf as [Hf|Hf]; subst st; eexists; intros o; cbn [member_execute token_execute denom_execute stake_execute]; rewrite G; reflexivity.
Qed.

Lemma gas_7 (gas : nat) : (7 <= gas)%nat -> exists n, gas = S (S (S (S (S (S (S n)))))).
Proof. intros H. exists (gas - 7)%nat. lia. Qed.

Lemma unstake_goes_through X (Out : outside X) A w0 ts w minimum initial u amount st e gas : new_dao A w0 ->
  funds_instantiate (a_controller A) (a_enterprise A) minimum initial = Ok (w_funds w0) -> weights_covered w0 u ->
  w = world_run Out A w0 ts -> timely 0 ts -> lasting w -> calm A w -> undisturbed A w -> free_calls Out -> rewards_fit w ->
  fungible (w_member w) st -> amount <= weight_of (w_member w) u -> unlockable e (st_period st) (st_next_claim st) ->
  last_time ts <= e_time e -> is_dao A u = false -> u <> 0 -> (7 <= gas)%nat ->
  exists w' st', world_tx Out A w (mk_tx gas e u (to_membership A (unstaking (w_member w) amount))) = Ok w' /\ fungible (w_member w') st' /\
    (forall v, weight_of (w_member w') v = if v =? u then weight_of (w_member w) u - amount else weight_of (w_member w) v) /\
    st_claims st' = oset (st_claims st) (st_next_claim st) (mk_claim (st_next_claim st) u amount (release_computed e (st_period st))) /\
    rest_same w w'.
Proof.
  intros HN HI Hc HW HT HL HC HU HF HR Hs Ha Hk He Hd Hu Hg.
  destruct (standing X Out A w0 ts w minimum initial HN HI HW HT HL HC HU) as (K & (b & Rb & Eb) & Hadm & Hmr & Hx).
  destruct (Hx u (weight_of (w_member w) u - amount) Hc ltac:(lia)) as (X1 & X2).
  destruct (unstake_accepted _ st e u amount (a_controller A) Hmr Hs Ha Hk (c_hooks _ _ _ K)) as (st1 & H1).
  destruct (HF (w_ext w) u (a_membership A)) as (y & Hy). destruct (gas_7 _ Hg) as (n & ->).
  assert (Hst : started_by (w_gov w) (e_time e)) by (intros i p Hp; apply (c_started _ _ _ K) in Hp; lia).
  destruct (lowering_told Out A (nd_addrs _ _ HN) n w e b u [] (unstaking (w_member w) amount) st1 u (weight_of (w_member w) u) (weight_of (w_member w) u - amount) y
    HF (c_wired _ _ _ K) (c_ginv _ _ _ K) Hst Rb Eb HR Hadm Hy) as (w1 & G1 & G2 & G3); auto.
  set (c := mk_mcall (member_oracle_of Out A w (w_member w)) e u [] (unstaking (w_member w) amount)).
  assert (Hacc : accepts (w_member w) c st1 [OReport (a_controller A) [mk_change u (weight_of (w_member w) u) (weight_of (w_member w) u - amount)]]) by (apply H1).
  assert (Hsc : stake_call c (SUnstake amount)) by (unfold stake_call, c, unstaking; cbn [mc_msg]; destruct Hs as [E|E]; rewrite E; auto).
  destruct (unstake_exact _ _ _ _ _ _ Hacc Hs Hsc) as (_ & _ & _ & s' & S1 & S2 & _ & S4 & _).
  exists w1, s'. split; [|rewrite G3; split; [exact S1|split; [exact S2|split; [exact S4|exact G2]]]].
  unfold world_tx. cbn [tx_gas tx_env tx_signer tx_msg]. rewrite Hd. cbn [negb guard bind]. unfold to_membership. rewrite G1. reflexivity.
Qed.

(** NFTs *)
Lemma unstake_nft_loop_fwd u ts : forall stakes, NoDup ts -> (forall t, In t ts -> oget stakes t = Some u) ->
  exists stakes', fold_res (unstake_nft_one u) stakes ts = Ok stakes'.
Proof.
  induction ts as [|t ts IH]; intros stakes Hd Ho; cbn [fold_res]; [eauto|]. inversion Hd; subst.
  unfold unstake_nft_one at 1. rewrite (Ho t (or_introl eq_refl)). cbn [ok_or bind]. rewrite N.eqb_refl. cbn [guard bind].
  apply IH; [assumption|]. intros t' Ht. rewrite oget_odel. replace (t =? t') with false by (symmetry; apply N.eqb_neq; congruence). apply Ho. right. exact Ht.
Qed.

Lemma unstake_nft_accepted st s e u ts c : member_reachable st -> st = MNft s -> NoDup ts -> (forall t, In t ts -> oget (ns_stakes s) t = Some u) ->
  unlockable e (ns_period s) (ns_next_claim s) -> okeys (m_hooks (members_of st)) = [c] ->
  N.of_nat (length ts) <= weight_of st u /\
  exists st', forall o, member_execute o st e u [] (NftMsg (NUnstake ts)) = Ok (st', [OReport c [mk_change u (weight_of st u) (weight_of st u - N.of_nat (length ts))]]).
Proof.
  intros Hr -> Hd Ho (Hn & Hp) Hh. pose proof (nft_weight_is_count _ s u Hr eq_refl) as Hw.
  apply reachable_inv in Hr. destruct Hr as [Hs _]. cbn [members_of] in *. pose proof (weight_le_total _ u Hs) as Hle.
  destruct (unstake_nft_loop_fwd u ts (ns_stakes s) Hd Ho) as (stk & Hf).
  pose proof (nfts_without u _ _ _ _ Hf) as E. rewrite N.eqb_refl in E. unfold nfts_staked in Hw.
  unfold weight_of in *. cbn [members_of] in *. fold (member_weight (ns_members s) u) in *. set (a := N.of_nat (length ts)) in *.
  assert (Ha : a <= member_weight (ns_members s) u) by lia. split; [exact Ha|].
  assert (G : exists s1, unstake_nft s e u ts = Ok (s1, [OReport c [mk_change u (member_weight (ns_members s) u) (member_weight (ns_members s) u - a)]])).
  { unfold unstake_nft. rewrite Hf. cbn [bind]. fold a. assert (E1 : a <=? member_weight (ns_members s) u = true) by (apply N.leb_le; assumption).
    unfold decrement_member_weight, uint_sub. rewrite E1. cbn [bind].
    unfold decrement_total_weight, uint_sub.
    assert (E2 : a <=? total_weight (set_member_weight (ns_members s) u (member_weight (ns_members s) u - a)) = true).
    { apply N.leb_le. change (total_weight _) with (total_weight (ns_members s)). lia. }
    rewrite E2. cbn [bind]. rewrite release_total by assumption. cbn [bind]. unfold add_nft_claim, uint64_add. cbn [ns_with_members ns_with_stakes ns_next_claim].
    assert (E3 : ns_next_claim s + 1 <? M64 = true) by (apply N.ltb_lt; exact Hn). rewrite E3. cbn [bind].
    eexists. f_equal. f_equal. unfold report. change (okeys (m_hooks _)) with (okeys (m_hooks (ns_members s))). rewrite Hh. reflexivity. }
  destruct G as (s1 & G). exists (MNft s1). intros o. cbn [member_execute nft_execute]. rewrite G. reflexivity.
Qed.

Lemma unstake_nfts_goes_through X (Out : outside X) A w0 ts w minimum initial u tokens st e gas : new_dao A w0 ->
  funds_instantiate (a_controller A) (a_enterprise A) minimum initial = Ok (w_funds w0) -> weights_covered w0 u ->
  w = world_run Out A w0 ts -> timely 0 ts -> lasting w -> calm A w -> undisturbed A w -> free_calls Out -> rewards_fit w ->
  w_member w = MNft st -> NoDup tokens -> (forall t, In t tokens -> oget (ns_stakes st) t = Some u) -> unlockable e (ns_period st) (ns_next_claim st) ->
  last_time ts <= e_time e -> is_dao A u = false -> u <> 0 -> (7 <= gas)%nat ->
  exists w' st', world_tx Out A w (mk_tx gas e u (to_membership A (NftMsg (NUnstake tokens)))) = Ok w' /\ w_member w' = MNft st' /\
    (forall v, weight_of (w_member w') v = if v =? u then weight_of (w_member w) u - N.of_nat (length tokens) else weight_of (w_member w) v) /\
    ns_claims st' = oset (ns_claims st) (ns_next_claim st) (mk_nft_claim (ns_next_claim st) u tokens (release_computed e (ns_period st))) /\
    rest_same w w'.
Proof.
  intros HN HI Hc HW HT HL HC HU HF HR Hs Hnd Ho Hk He Hd Hu Hg.
  destruct (standing X Out A w0 ts w minimum initial HN HI HW HT HL HC HU) as (K & (b & Rb & Eb) & Hadm & Hmr & Hx).
  destruct (Hx u (weight_of (w_member w) u - N.of_nat (length tokens)) Hc ltac:(lia)) as (X1 & X2).
  destruct (unstake_nft_accepted _ st e u tokens (a_controller A) Hmr Hs Hnd Ho Hk (c_hooks _ _ _ K)) as (_ & st1 & H1).
  destruct (HF (w_ext w) u (a_membership A)) as (y & Hy). destruct (gas_7 _ Hg) as (n & ->).
  assert (Hst : started_by (w_gov w) (e_time e)) by (intros i p Hp; apply (c_started _ _ _ K) in Hp; lia).
  destruct (lowering_told Out A (nd_addrs _ _ HN) n w e b u [] (NftMsg (NUnstake tokens)) st1 u (weight_of (w_member w) u) (weight_of (w_member w) u - N.of_nat (length tokens)) y
    HF (c_wired _ _ _ K) (c_ginv _ _ _ K) Hst Rb Eb HR Hadm Hy) as (w1 & G1 & G2 & G3); auto.
  set (c := mk_mcall (member_oracle_of Out A w (w_member w)) e u [] (NftMsg (NUnstake tokens))).
  assert (Hacc : accepts (w_member w) c st1 [OReport (a_controller A) [mk_change u (weight_of (w_member w) u) (weight_of (w_member w) u - N.of_nat (length tokens))]]) by (apply H1).
  destruct (unstake_nfts _ _ _ _ _ _ Hacc Hs eq_refl) as (_ & _ & _ & _ & s' & S1 & _ & S2 & _ & S4 & _).
  exists w1, s'. split; [|rewrite G3; split; [exact S1|split; [exact S2|split; [exact S4|exact G2]]]].
  unfold world_tx. cbn [tx_gas tx_env tx_signer tx_msg]. rewrite Hd. cbn [negb guard bind]. unfold to_membership. rewrite G1. reflexivity.
Qed.

(** * Claims *)

Lemma reachable_kindly st : member_reachable st -> LedgerMember.kindly st.
Proof.
  intros (e & i & st0 & cs & H & ->).
  assert (G : MemberProofs.inv (member_run st0 cs) /\ LedgerMember.kindly (member_run st0 cs)); [|apply G].
  unfold member_run. apply (fold_left_inv (fun st => MemberProofs.inv st /\ LedgerMember.kindly st)).
  - intros st c (Hi & Hk). split; [apply inv_step; exact Hi|].
    destruct (MemberProofs.step_cases st c) as [[st' [outs [Ha Es]]]|Es]; rewrite Es; [|exact Hk]. cbn.
    destruct (staking_of st) as [s|] eqn:E.
    + destruct (LedgerMember.accepts_fair _ _ _ _ _ Hi Ha E Hk) as (s' & _ & _ & G & _). exact G.
    + unfold accepts in Ha. destruct st; cbn in E; try discriminate E; cbn [member_execute] in Ha;
        destruct (mc_msg c); try discriminate Ha; apply bind_ok in Ha; destruct Ha as ([? ?] & _ & Ha); injection Ha as <- _; exact I.
  - split; [apply init_inv in H; tauto|]. eapply init_kindly. exact H.
Qed.

(** a claim the contract serves by [ps] goes through when the ledgers do *)
Lemma claim_told X (Out : outside X) A bal n w e u mm st outs ps : NoDup (dao_addrs A) -> free_calls Out -> is_dao A u = false ->
  (forall w', w_member w' = w_member w -> member_execute (member_oracle_of Out A w' (w_member w)) (w_member w) e u [] mm = Ok (st, outs)) ->
  map member_sub outs = map (fun p => plain (paying_msg p)) ps ->
  (forall p, In p ps -> good_ledger Out A (a_membership A) (fst (fst p)) (bal (fst (fst p))) /\ amount_type (fst (fst p)) (snd p) /\ 0 < snd p /\
     lsum (paying_of (fst (fst p))) ps <= bal (fst (fst p)) (w_ext w)) ->
  (length ps + 3 <= n)%nat ->
  exists w', world_tx Out A w (mk_tx n e u (to_membership A mm)) = Ok w' /\ rest_same w w' /\ w_gov w' = w_gov w /\ w_funds w' = w_funds w /\ w_member w' = st /\
    w_log w' = rev (map (fun p => (a_membership A, paying_msg p)) ps) ++ (u, to_membership A mm) :: w_log w.
Proof.
  intros HA HF Hd Hm Hps HP Hn. destruct n as [|n]; [lia|]. destruct (HF (w_ext w) u (a_membership A)) as (x & Hx).
  set (w2 := set_ext (note w u (to_membership A mm)) x).
  destruct (all_paid Out A (a_membership A) bal ps n (set_member w2 st) e HF) as (w3 & G1 & ((?&?&?&?&?&?)&?&?&?) & G3); [|lia|].
  - intros p Hp. destruct (HP p Hp) as (P1 & P2 & P3 & P4). repeat (split; [assumption|]).
    destruct (gl_honest _ _ _ _ _ P1) as [HL _ _ _]. specialize (HL _ _ _ _ _ Hx).
    assert (Z : in_coins (fst (fst p)) [] = 0) by (destruct (fst (fst p)) as [[]|]; reflexivity). rewrite Z in HL.
    cbn [w2 w_ext set_member set_ext]. destruct (a_membership A =? a_membership A), (u =? a_membership A); lia.
  - exists w3. split; [|repeat split; assumption].
    unfold world_tx. cbn [tx_gas tx_env tx_signer tx_msg]. rewrite Hd. cbn [negb guard bind].
    assert (G : WorldModel.go Out A (S n) w e (JMsg u (to_membership A mm)) = Ok (w3, None)); [|rewrite G; reflexivity].
    eapply go_send; [exact Hx| |].
    + change (WasmExecute (a_membership A) (ToMembership mm) []) with (to_membership A mm). fold w2. unfold WorldModel.handle.
      pose proof (WorldProofs.member_not_ctl A HA) as N1. pose proof (WorldProofs.member_not_gov A HA) as N2.
      apply N.eqb_neq in N1, N2. rewrite N1, N2, N.eqb_refl. change (w_member w2) with (w_member w). rewrite Hm by reflexivity. cbn [bind]. reflexivity.
    + rewrite Hps. exact G1.
Qed.

Lemma claim_goes_through X (Out : outside X) A bal w0 ts w st u e gas : new_dao A w0 -> w = world_run Out A w0 ts -> free_calls Out ->
  fungible (w_member w) st -> let a := HAmount (st_asset st) in
  good_ledger Out A (a_membership A) a bal -> foreign A a ts -> bal (w_ext w) < 2 ^ 128 ->
  0 < due_amount e u st -> is_dao A u = false -> (4 <= gas)%nat ->
  exists w' st', world_tx Out A w (mk_tx gas e u (to_membership A (claiming (w_member w)))) = Ok w' /\ fungible (w_member w') st' /\
    w_log w' = (a_membership A, hand_over a u (due_amount e u st)) :: (u, to_membership A (claiming (w_member w))) :: w_log w /\
    (forall id, oget (st_claims st') id = match oget (st_claims st) id with Some cl => if due e u cl then None else Some cl | None => None end) /\
    (forall v, weight_of (w_member w') v = weight_of (w_member w) v) /\ rest_same w w' /\ w_gov w' = w_gov w /\ w_funds w' = w_funds w.
Proof.
  intros HN HW HF Hs a HG HFo HB Hdue Hd Hgas.
  assert (Hmr : member_reachable (w_member w)).
  { destruct (membership_history X Out A w0 ts w HN HW) as (css & _ & Em & _). destruct (nd_membership _ _ HN) as (e0 & i & Hi).
    rewrite Em. exists e0, i, (w_member w0), (concat css). auto. }
  assert (Hh : all_stakes st + all_claims st <= bal (w_ext w)) by (rewrite HW in *; exact (stakes_held X Out A bal ts w0 st HN (gl_honest _ _ _ _ _ HG) HFo Hs)).
  assert (Hle : due_amount e u st <= all_claims st) by (apply osum_le; intros k v _; destruct (due _ _ v); lia).
  assert (G : exists st1, forall o, member_execute o (w_member w) e u [] (claiming (w_member w)) = Ok (st1, [OPay (st_asset st) u (due_amount e u st)])).
  { assert (G0 : exists s1, claim_stake st e u None = Ok (s1, [OPay (st_asset st) u (due_amount e u st)])).
    { unfold claim_stake. cbn [bind]. rewrite N.eqb_refl. cbn [guard bind]. rewrite claim_loop, releasable_due. cbn [N.add]. rewrite lsum_due.
      replace (due_amount e u st <? M128) with true by (symmetry; apply N.ltb_lt; change M128 with (2 ^ 128); lia). cbn [bind]. eauto. }
    destruct G0 as (s1 & G0). unfold claiming. destruct Hs as [E|E]; rewrite E; eexists; intros o;
      cbn [member_execute token_execute denom_execute stake_execute]; rewrite G0; reflexivity. }
  destruct G as (st1 & H1).
  assert (HT : amount_type a (due_amount e u st)).
  { apply reachable_kindly in Hmr. destruct Hs as [E|E]; rewrite E in Hmr; cbn in Hmr; destruct Hmr as (t & Et); unfold a; rewrite Et; exact I. }
  destruct (claim_told X Out A (fun _ => bal) gas w e u (claiming (w_member w)) st1 _ [(a, u, due_amount e u st)] (nd_addrs _ _ HN) HF Hd (fun w' _ => H1 _)) as (w' & W1 & W2 & W3 & W4 & W5 & W6).
  - cbn [map]. unfold member_sub, paying_msg, a. cbn [fst snd hand_over]. destruct (st_asset st); reflexivity.
  - intros p [<-|[]]. cbn [fst snd]. split; [exact HG|]. split; [exact HT|]. split; [exact Hdue|].
    unfold lsum. cbn [map fold_right]. unfold paying_of. cbn [fst snd]. rewrite (proj2 (holding_eqb_spec a a) eq_refl). lia.
  - cbn [length]. lia.
  - set (c := mk_mcall (member_oracle_of Out A w (w_member w)) e u [] (claiming (w_member w))).
    assert (Hacc : accepts (w_member w) c st1 [OPay (st_asset st) u (due_amount e u st)]) by (apply H1).
    assert (Hsc : stake_call c (SClaim None)) by (unfold stake_call, c, claiming; cbn [mc_msg]; destruct Hs as [E|E]; rewrite E; auto).
    destruct (claim_pays _ _ _ _ _ _ Hmr Hacc Hs Hsc) as (_ & _ & s' & S1 & S2 & S3 & _).
    exists w', s'. split; [exact W1|]. rewrite W5. split; [exact S1|]. split; [exact W6|]. split; [exact S2|]. split; [|auto].
    intros v. unfold weight_of. f_equal. f_equal. assert (M1 : members_of st1 = st_members s') by (destruct S1 as [->| ->]; reflexivity).
    assert (M2 : members_of (w_member w) = st_members st) by (destruct Hs as [E|E]; rewrite E; reflexivity). congruence.
Qed.

Lemma lsum_token_count col (u : N) t l : lsum (paying_of (HNft col t)) (map (fun k => (HNft col k, u, 1)) l) = count t l.
Proof.
  unfold count. rewrite lsum_map. apply lsum_ext_in. intros k _. unfold paying_of. cbn [fst snd holding_eqb]. rewrite N.eqb_refl. cbn [andb].
  reflexivity.
Qed.

Lemma count_flat t l : count t (flat_map nc_tokens l) = lsum (fun c => count t (nc_tokens c)) l.
Proof.
  induction l as [|c l IH]; [reflexivity|]. cbn [flat_map]. rewrite lsum_cons, <- IH. unfold count.
  induction (nc_tokens c) as [|y ys IHy]; [reflexivity|]. cbn [app]. rewrite !lsum_cons, IHy. lia.
Qed.

Lemma nft_claim_goes_through X (Out : outside X) A bal w0 ts w st col u e gas : new_dao A w0 -> w = world_run Out A w0 ts -> free_calls Out ->
  w_member w = MNft st -> ns_contract st = NCw721 col ->
  (forall t, In t (due_nfts e u st) -> good_ledger Out A (a_membership A) (HNft col t) (bal t)) -> foreign A (HNft col 0) ts ->
  is_dao A u = false -> (length (due_nfts e u st) + 3 <= gas)%nat ->
  exists w' st', world_tx Out A w (mk_tx gas e u (to_membership A (claiming (w_member w)))) = Ok w' /\ w_member w' = MNft st' /\
    w_log w' = rev (map (fun t => (a_membership A, hand_over (HNft col t) u 1)) (due_nfts e u st)) ++ (u, to_membership A (claiming (w_member w))) :: w_log w /\
    (forall id, oget (ns_claims st') id = match oget (ns_claims st) id with Some cl => if nft_due e u cl then None else Some cl | None => None end) /\
    ns_stakes st' = ns_stakes st /\ (forall v, weight_of (w_member w') v = weight_of (w_member w) v) /\ rest_same w w' /\ w_gov w' = w_gov w /\ w_funds w' = w_funds w.
Proof.
  intros HN HW HF Hs Hcol HG HFo Hd Hgas.
  assert (Hmr : member_reachable (w_member w)).
  { destruct (membership_history X Out A w0 ts w HN HW) as (css & _ & Em & _). destruct (nd_membership _ _ HN) as (e0 & i & Hi).
    rewrite Em. exists e0, i, (w_member w0), (concat css). auto. }
  assert (Hh : forall t, In t (due_nfts e u st) -> booked st t <= bal t (w_ext w)).
  { intros t Ht. subst w. exact (nfts_held X Out A (bal t) ts w0 st col t HN (gl_honest _ _ _ _ _ (HG t Ht)) HFo Hs Hcol). }
  assert (G : exists st1, forall o, member_execute o (w_member w) e u [] (claiming (w_member w)) = Ok (MNft st1, map (OSendNft col u) (due_nfts e u st))).
  { unfold claiming. rewrite Hs. eexists. intros o. cbn [member_execute nft_execute]. unfold claim_nft. rewrite Hcol. cbn [bind]. rewrite N.eqb_refl. cbn [guard bind].
    rewrite nft_releasable_due. fold (due_nfts e u st). reflexivity. }
  destruct G as (st1 & H1). set (ps := map (fun k => (HNft col k, u, 1)) (due_nfts e u st)).
  destruct (claim_told X Out A (fun h => match h with HNft _ k => bal k | _ => fun _ => 0 end) gas w e u (claiming (w_member w)) (MNft st1) _ ps (nd_addrs _ _ HN) HF Hd (fun w' _ => H1 _)) as (w' & W1 & W2 & W3 & W4 & W5 & W6).
  - unfold ps. rewrite !map_map. reflexivity.
  - intros p Hp. apply in_map_iff in Hp. destruct Hp as (t & <- & Ht). cbn [fst snd]. split; [exact (HG t Ht)|]. split; [reflexivity|]. split; [lia|].
    unfold ps. rewrite lsum_token_count. specialize (Hh t Ht). unfold booked in Hh. unfold due_nfts. rewrite count_flat, lsum_filter.
    assert (Z : lsum (fun c => if nft_due e u c then count t (nc_tokens c) else 0) (ovals (ns_claims st)) <= lsum (fun c => count t (nc_tokens c)) (ovals (ns_claims st))).
    { apply lsum_le_in. intros c _. destruct (nft_due e u c); lia. }
    lia.
  - unfold ps. rewrite map_length. exact Hgas.
  - set (c := mk_mcall (member_oracle_of Out A w (w_member w)) e u [] (claiming (w_member w))).
    assert (Hacc : accepts (w_member w) c (MNft st1) (map (OSendNft col u) (due_nfts e u st))) by (apply H1).
    assert (Hmsg : mc_msg c = NftMsg (NClaim None)) by (unfold c, claiming; cbn [mc_msg]; rewrite Hs; reflexivity).
    destruct (nft_claim_pays _ _ _ _ _ _ Hmr Hacc Hs Hmsg) as (_ & col' & s' & _ & S1 & _ & S2 & S3 & _ & _ & S6 & _).
    exists w', s'. split; [exact W1|]. rewrite W5. split; [exact S1|]. split; [|split; [exact S2|split; [exact S6|split; [|auto]]]].
    + unfold ps in W6. rewrite map_map in W6. exact W6.
    + intros v. unfold weight_of. rewrite S1, Hs. cbn [members_of]. rewrite S3. reflexivity.
Qed.

(** * Rewards *)

Lemma rewards_backed X (Out : outside X) A bal ts (w : world X) a ad en mn ini :
  NoDup (dao_addrs A) -> funds_instantiate ad en mn ini = Ok (w_funds w) ->
  honest_ledger Out (a_funds A) (HAmount a) bal -> foreign A (HAmount a) ts ->
  exists v, rewards_due a (world_run Out A w ts) v /\ v <= bal (w_ext (world_run Out A w ts)).
Proof.
  intros HA Hi HL HF.
  apply (run_backed Out A (a_funds A) (HAmount a) bal (rewards_due a)) with (ts := ts) (w := w) (v := 0).
  - apply in_dao_funds.
  - exact HL.
  - intros t0 Ht. apply (HF t0 Ht).
  - intros w0 v x H. exact H.
  - intros w0 v x m H. exact H.
  - intros w0 v H. exact H.
  - intros n w0 e0 s0 to m coins w1 subs d v H Hn H1. pose proof (handle_funds _ _ _ _ _ _ _ _ _ _ _ _ H Hn) as E.
    unfold rewards_due. rewrite E. exact H1.
  - intros w0 e0 self id r w1 more v H Hn H1. destruct (reply_both _ _ _ _ _ _ _ _ _ H) as (_ & E).
    unfold rewards_due. rewrite E. exact H1.
  - intros. eapply rewards_own; eassumption.
  - intros t0 x Ht Hx. destruct (HF t0 Ht) as (_ & Hs'). apply Hs'. exact Hx.
  - eapply init_rewards. exact Hi.
  - lia.
Qed.

(** what a ledger of Uint128 amounts covers fits the amount type *)
Lemma ledger_fits X (Out : outside X) A ts (w0 w : world X) ad en mn ini :
  NoDup (dao_addrs A) -> funds_instantiate ad en mn ini = Ok (w_funds w0) -> w = world_run Out A w0 ts ->
  (forall a, (forall u, claimable (w_funds w) u a = Ok 0) \/
     exists bal, honest_ledger Out (a_funds A) (HAmount a) bal /\ foreign A (HAmount a) ts /\ bal (w_ext w) < 2 ^ 128) ->
  rewards_fit w.
Proof.
  intros HA HI HW H u a. destruct (H a) as [H0|(bal & HL & HF & HB)]; [exists 0; apply H0|].
  destruct (rewards_backed X Out A bal ts w0 a ad en mn ini HA HI HL HF) as (v & (b & Rb & Eb & Hv) & Hle). rewrite <- HW in *.
  pose proof (sum_amounts b a [u] Rb (NoDup_cons u (@in_nil _ u) (NoDup_nil _))) as S. rewrite lsum_cons in S. unfold lsum in S; cbn [map fold_right] in S.
  destruct (reachable_solvent b Rb) as (Hok & _). rewrite <- Eb. rewrite (claimable_amount _ _ _ Hok).
  assert (Hlt : amount (b_funds b) u a < M128) by (change M128 with (2 ^ 128); lia). apply N.ltb_lt in Hlt. rewrite Hlt. eauto.
Qed.

Lemma side_answers (mk : N -> asset) f u l : forall n, map_res (fun d => x <- claimable f u (mk d) ;; Ok (d, x)) l = Ok n ->
  map fst n = l /\ forall d x, In (d, x) n <-> In d l /\ claimable f u (mk d) = Ok x.
Proof.
  induction l as [|d0 l IH]; intros n H; cbn [map_res] in H.
  - injection H as <-. split; [reflexivity|]. intros d x. cbn. tauto.
  - apply bind_ok in H. destruct H as ([d1 x1] & H1 & H). apply bind_ok in H. destruct H as (n1 & H2 & H). injection H as <-.
    apply bind_ok in H1. destruct H1 as (y & Hy & H1). injection H1 as <- <-. destruct (IH _ H2) as (I1 & I2). cbn [map fst]. split; [f_equal; exact I1|].
    intros d x. cbn [In]. rewrite I2. split.
    + intros [E|E]; [injection E as <- <-; auto|tauto].
    + intros ([<-|E] & Hc); [left; congruence|right; auto].
Qed.

Lemma pay_all_In mk u l a to x : In (mk_payment a to x) (pay_all mk u l) <-> to = u /\ 0 < x /\ exists d, a = mk d /\ In (d, x) l.
Proof.
  unfold pay_all. rewrite in_map_iff. split.
  - intros ([d y] & E & Hin). cbn [fst snd] in E. injection E as <- <- <-. apply filter_In in Hin. cbn [snd] in Hin. destruct Hin as (Hin & Hx).
    apply negb_true_iff, N.eqb_neq in Hx. split; [reflexivity|]. split; [lia|eauto].
  - intros (-> & Hx & d & -> & Hin). exists (d, x). split; [reflexivity|]. apply filter_In. split; [exact Hin|]. cbn [snd]. apply negb_true_iff, N.eqb_neq. lia.
Qed.

Lemma pay_all_assets mk u l : (forall d d', mk d = mk d' -> d = d') -> NoDup (map fst l) -> NoDup (map pay_asset (pay_all mk u l)).
Proof.
  intros Hinj. unfold pay_all. rewrite map_map. cbn [pay_asset]. induction l as [|[d x] l IH]; cbn [map fst filter snd]; intros H; [constructor|].
  inversion H; subst. destruct (negb (x =? 0)); cbn [map fst]; [|auto]. constructor; [|auto]. intros Hin. apply in_map_iff in Hin.
  destruct Hin as ([d' x'] & E & Hin). apply Hinj in E. cbn [fst] in E. subst d'. apply filter_In in Hin. destruct Hin as (Hin & _).
  apply H2. apply in_map_iff. exists (d, x'). auto.
Qed.

Lemma pay_all_length mk u (l : list (N * N)) : (length (pay_all mk u l) <= length l)%nat.
Proof. unfold pay_all. rewrite map_length. induction l as [|p l IH]; cbn [filter length]; [lia|]. destruct (negb _); cbn [length]; lia. Qed.

Lemma dedup_length l : forall seen, (length (dedup seen l) <= length l)%nat.
Proof. induction l as [|a l IH]; intros seen; cbn [dedup length]; [lia|]. destruct (existsb _ _); [specialize (IH seen)|specialize (IH (a :: seen)); cbn [length]]; lia. Qed.

Lemma claim_payments b o user coins ns cs f' ps : reachable b -> let f := b_funds b in
  funds_execute o f user coins (FClaim user ns cs) = Ok (f', ps) ->
  NoDup (map pay_asset ps) /\ (length ps <= length ns + length cs)%nat /\
  (forall a to x, In (mk_payment a to x) ps <-> to = user /\ 0 < x /\ In a (map Native ns ++ map Cw20 cs) /\ claimable f user a = Ok x).
Proof.
  intros Hr f H. destruct (claim_pays_query b o user coins user ns cs f' ps Hr H) as ((n & c & Hq & ->) & _). fold f in Hq.
  unfold query_user_rewards in Hq. apply bind_ok in Hq. destruct Hq as (u & Hu & Hq). unfold addr_validate in Hu. destruct (user =? 0); [discriminate|]. injection Hu as <-.
  apply bind_ok in Hq. destruct Hq as (n' & Hn & Hq). apply bind_ok in Hq. destruct Hq as (c20 & Hv & Hq). apply bind_ok in Hq. destruct Hq as (c' & Hc & Hq).
  injection Hq as <- <-.
  assert (Ev : c20 = cs).
  { clear - Hv. revert c20 Hv. induction cs as [|a cs IH]; intros l H; cbn [map_res] in H; [injection H as <-; reflexivity|].
    apply bind_ok in H. destruct H as (y & Hy & H). apply bind_ok in H. destruct H as (l' & Hl & H). injection H as <-.
    unfold addr_validate in Hy. destruct (a =? 0); [discriminate|]. injection Hy as <-. f_equal. auto. }
  subst c20. apply side_answers in Hn, Hc. destruct Hn as (N1 & N2), Hc as (C1 & C2). split; [|split].
  - rewrite map_app.
    assert (D1 : NoDup (map pay_asset (pay_all Native user n'))) by (apply pay_all_assets; [intros d d' E; congruence|rewrite N1; apply dedup_NoDup]).
    assert (D2 : NoDup (map pay_asset (pay_all Cw20 user c'))) by (apply pay_all_assets; [intros d d' E; congruence|rewrite C1; apply dedup_NoDup]).
    assert (D3 : forall a, In a (map pay_asset (pay_all Native user n')) -> ~ In a (map pay_asset (pay_all Cw20 user c'))).
    { intros a H1 H2. apply in_map_iff in H1, H2. destruct H1 as ([a1 t1 x1] & E1 & H1), H2 as ([a2 t2 x2] & E2 & H2). cbn in E1, E2.
      apply pay_all_In in H1, H2. destruct H1 as (_ & _ & d1 & -> & _), H2 as (_ & _ & d2 & -> & _). congruence. }
    revert D1 D3. generalize (map pay_asset (pay_all Native user n')). intros l D1 D3. induction l as [|a l IH]; [exact D2|].
    inversion D1; subst. cbn [app]. constructor; [|apply IH; [assumption|intros a' Ha'; apply D3; right; exact Ha']].
    intros Hin. apply in_app_iff in Hin. destruct Hin as [Hin|Hin]; [contradiction|]. exact (D3 a (or_introl eq_refl) Hin).
  - rewrite app_length. pose proof (pay_all_length Native user n') as L1. pose proof (pay_all_length Cw20 user c') as L2.
    assert (E1 : length n' = length (dedup [] ns)) by (rewrite <- N1, map_length; reflexivity).
    assert (E2 : length c' = length (dedup [] cs)) by (rewrite <- C1, map_length; reflexivity).
    pose proof (dedup_length ns []). pose proof (dedup_length cs []). unfold addr in *. lia.
  - intros a to x. rewrite in_app_iff, !pay_all_In, in_app_iff, !in_map_iff. split.
    + intros [(-> & Hx & d & -> & Hin)|(-> & Hx & d & -> & Hin)].
      * apply N2 in Hin. destruct Hin as (Hin & Hcl). apply dedup_In in Hin. split; [reflexivity|]. split; [exact Hx|]. split; [left; exists d; tauto|exact Hcl].
      * apply C2 in Hin. destruct Hin as (Hin & Hcl). apply dedup_In in Hin. split; [reflexivity|]. split; [exact Hx|]. split; [right; exists d; tauto|exact Hcl].
    + intros (-> & Hx & [(d & <- & Hin)|(d & <- & Hin)] & Hcl).
      * left. split; [reflexivity|]. split; [exact Hx|]. exists d. split; [reflexivity|]. apply N2. split; [|exact Hcl]. apply dedup_In. cbn. tauto.
      * right. split; [reflexivity|]. split; [exact Hx|]. exists d. split; [reflexivity|]. apply C2. split; [|exact Hcl]. apply dedup_In. cbn. tauto.
Qed.

Lemma claim_defined b o user coins ns cs : reachable b ->
  (forall a, In a (map Native ns ++ map Cw20 cs) -> exists x, claimable (b_funds b) user a = Ok x) ->
  fo_restricted o user = false -> user <> 0 -> ~ In 0 cs ->
  exists f' ps, funds_execute o (b_funds b) user coins (FClaim user ns cs) = Ok (f', ps).
Proof.
  intros Hr Hd Hres Hu Hcs. destruct (reachable_solvent b Hr) as (Hok & _). pose proof Hok as (_ & _ & (Hn & _) & (Hc & _)).
  assert (Ha : forall a, In a (map Native ns ++ map Cw20 cs) -> amount (b_funds b) user a < M128).
  { intros a Hin. destruct (Hd a Hin) as (x & Hx). apply (claimable_ok _ _ _ _ Hok Hx). }
  cbn [funds_execute]. unfold claim_rewards. rewrite Hres. cbn [negb guard bind]. unfold addr_validate at 1.
  replace (user =? 0) with false by lia. cbn [bind]. rewrite N.eqb_refl. cbn [guard bind].
  destruct (claim_fold_defined user (ogetN (f_eff (b_funds b)) user) ns (f_native (b_funds b)) []) as (n & o1 & H1).
  { intros; apply Hn. } { intros d Hd'. apply (Ha (Native d)). apply in_or_app. left. apply in_map. exact Hd'. }
  rewrite H1. cbn [bind]. rewrite (fold_validate_intro _ cs Hcs).
  destruct (claim_fold_defined user (ogetN (f_eff (b_funds b)) user) cs (f_cw20 (b_funds b)) []) as (c & o2 & H2).
  { intros; apply Hc. } { intros d Hd'. apply (Ha (Cw20 d)). apply in_or_app. right. apply in_map. exact Hd'. }
  rewrite H2. cbn [bind]. eauto.
Qed.

Lemma books_enterprise f0 cs : funds_ok f0 -> f_enterprise (b_funds (books_run f0 cs)) = f_enterprise f0.
Proof.
  intros H0. unfold books_run.
  assert (G : forall b, funds_ok (b_funds b) /\ f_enterprise (b_funds b) = f_enterprise f0 ->
     funds_ok (b_funds (fold_left books_step cs b)) /\ f_enterprise (b_funds (fold_left books_step cs b)) = f_enterprise f0).
  { intros b Hb. apply (fold_left_inv (fun b => funds_ok (b_funds b) /\ f_enterprise (b_funds b) = f_enterprise f0)); [|exact Hb].
    intros b1 c (Hb1 & E). unfold books_step. cbn [b_funds]. unfold funds_step.
    destruct (funds_execute _ _ _ _ _) as [[f' ps]|] eqn:Ex; [|split; assumption]. cbn [fst].
    apply (execute_balance _ _ _ _ _ _ _ Hb1) in Ex. destruct Ex as (E1 & _ & E3 & _). split; congruence. }
  apply G. split; [exact H0|reflexivity].
Qed.

Lemma lsum_paid a (ps : list FundsModel.payment) (x : N) : NoDup (map pay_asset ps) -> (forall p, In p ps -> pay_asset p = a -> pay_amount p <= x) ->
  lsum (paying_of (HAmount a)) (map (fun p => (HAmount (pay_asset p), pay_to p, pay_amount p)) ps) <= x.
Proof.
  induction ps as [|p ps IH]; intros Hd Hx; cbn [map]; [unfold lsum; cbn; lia|]. rewrite lsum_cons. inversion Hd; subst.
  unfold paying_of at 1. cbn [fst snd]. destruct (holding_eqb (HAmount (pay_asset p)) (HAmount a)) eqn:E.
  - apply holding_eqb_spec in E. assert (E' : pay_asset p = a) by congruence. pose proof (Hx p (or_introl eq_refl) E') as Hp.
    assert (Z : lsum (paying_of (HAmount a)) (map (fun p => (HAmount (pay_asset p), pay_to p, pay_amount p)) ps) = 0).
    { rewrite lsum_map. apply lsum_zero. intros q Hq. unfold paying_of. cbn [fst snd].
      destruct (holding_eqb (HAmount (pay_asset q)) (HAmount a)) eqn:E2; [|reflexivity]. apply holding_eqb_spec in E2. exfalso. apply H1.
      rewrite E'. replace a with (pay_asset q) by congruence. apply in_map. exact Hq. }
    lia.
  - specialize (IH H2 (fun q Hq => Hx q (or_intror Hq))). lia.
Qed.

Lemma reward_claim_goes_through X (Out : outside X) A bal w0 ts w minimum initial u ns cs e gas : new_dao A w0 ->
  funds_instantiate (a_controller A) (a_enterprise A) minimum initial = Ok (w_funds w0) -> w = world_run Out A w0 ts -> free_calls Out ->
  let asked := map Native ns ++ map Cw20 cs in
  (forall a, In a asked -> good_ledger Out A (a_funds A) (HAmount a) (bal a) /\ foreign A (HAmount a) ts /\ bal a (w_ext w) < 2 ^ 128) ->
  unrestricted Out w u -> u <> 0 -> ~ In 0 cs -> is_dao A u = false -> (length ns + length cs + 3 <= gas)%nat ->
  exists w' paid, world_tx Out A w (mk_tx gas e u (to_distributor A (FClaim u ns cs))) = Ok w' /\
    w_log w' = map (fun p => (a_funds A, hand_over (HAmount (fst p)) u (snd p))) paid ++ (u, to_distributor A (FClaim u ns cs)) :: w_log w /\
    NoDup (map fst paid) /\ (forall a x, In (a, x) paid <-> In a asked /\ 0 < x /\ claimable (w_funds w) u a = Ok x) /\
    (forall v a, claimable (w_funds w') v a = if (v =? u) && asset_in a asked then Ok 0 else claimable (w_funds w) v a) /\
    rest_same w w' /\ w_gov w' = w_gov w /\ w_member w' = w_member w.
Proof.
  intros HN HI HW HF asked HG Hun Hu Hcs Hd Hgas. pose proof (nd_addrs _ _ HN) as HA.
  destruct (funds_history X Out A w0 ts w HN HW) as (calls & Ec & _).
  assert (R : reachable (books_run (w_funds w0) calls)) by (repeat eexists; exact HI). set (b := books_run (w_funds w0) calls) in *.
  assert (Een : f_enterprise (w_funds w) = a_enterprise A).
  { apply instantiate_ok in HI. destruct HI as (H0 & _ & H2 & _). rewrite Ec. unfold b. rewrite books_enterprise by exact H0. exact H2. }
  assert (Hfit : forall a, In a asked -> exists x, claimable (w_funds w) u a = Ok x /\ x <= bal a (w_ext w)).
  { intros a Ha. destruct (HG a Ha) as (G1 & G2 & G3).
    destruct (rewards_backed X Out A (bal a) ts w0 a _ _ _ _ HA HI (gl_honest _ _ _ _ _ G1) G2) as (v & (b1 & Rb & Eb & Hv) & Hle). rewrite <- HW in *.
    pose proof (sum_amounts b1 a [u] Rb (NoDup_cons u (@in_nil _ u) (NoDup_nil _))) as S. rewrite lsum_cons in S. unfold lsum in S; cbn [map fold_right] in S.
    destruct (reachable_solvent b1 Rb) as (Hok & _). rewrite <- Eb. rewrite (claimable_amount _ _ _ Hok).
    assert (Hlt : amount (b_funds b1) u a < M128) by (change M128 with (2 ^ 128); lia). apply N.ltb_lt in Hlt. rewrite Hlt. exists (amount (b_funds b1) u a). split; [reflexivity|lia]. }
  destruct gas as [|n]; [lia|]. destruct (HF (w_ext w) u (a_funds A)) as (x & Hx).
  set (w2 := set_ext (note w u (to_distributor A (FClaim u ns cs))) x).
  assert (Hres : fo_restricted (funds_oracle_of Out A n w2) u = false).
  { unfold funds_oracle_of. cbn [fo_restricted]. unfold restricted_by, enterprise_at. change (w_funds w2) with (w_funds w). rewrite Een, N.eqb_refl. cbn [bind].
    change (w_enterprise w2) with (w_enterprise w). unfold query_is_restricted_user. unfold unrestricted in Hun.
    destruct (en_components (w_enterprise w)) as [c|]; [|destruct Hun]. cbn [ok_or bind]. destruct (c_attestation c); [|reflexivity]. rewrite Hun. reflexivity. }
  destruct (claim_defined b (funds_oracle_of Out A n w2) u [] ns cs R) as (f' & ps & Hex); try assumption.
  { intros a Ha. rewrite <- Ec. destruct (Hfit a Ha) as (y & Hy & _). eauto. }
  destruct (claim_payments _ _ _ _ _ _ _ _ R Hex) as (P1 & P2 & P3). pose proof (claim_pays_query _ _ _ _ _ _ _ _ _ R Hex) as (_ & P4). rewrite <- Ec in *.
  set (qs := map (fun p => (HAmount (pay_asset p), pay_to p, pay_amount p)) ps).
  destruct (all_paid Out A (a_funds A) (fun h => match h with HAmount a => bal a | _ => fun _ => 0 end) qs n (set_funds w2 f') e HF) as (w3 & G1 & ((?&?&?&?&?&?)&M1&M2&M3) & G3).
  - intros q Hq. apply in_map_iff in Hq. destruct Hq as ([a to y] & <- & Hp). cbn [fst snd pay_asset pay_to pay_amount].
    pose proof (proj1 (P3 a to y) Hp) as (-> & Hy & Ha & Hcl). destruct (HG a Ha) as (L1 & L2 & L3). split; [exact L1|]. split.
    { apply in_app_iff in Ha. rewrite !in_map_iff in Ha. destruct Ha as [(d & <- & _)|(d & <- & _)]; exact I. }
    split; [exact Hy|]. destruct (Hfit a Ha) as (z & Hz & Hle).
    assert (L : lsum (paying_of (HAmount a)) qs <= z).
    { apply lsum_paid; [exact P1|]. intros [a2 t2 y2] Hin E. cbn in E. subst a2. cbn. pose proof (proj1 (P3 _ _ _) Hin) as (_ & _ & _ & Hc2). congruence || (assert (y2 = z) by congruence; lia). }
    destruct (gl_honest _ _ _ _ _ L1) as [HL _ _ _]. specialize (HL _ _ _ _ _ Hx). change (in_coins (HAmount a) []) with (in_coins (HAmount a) []) in HL.
    assert (Z : in_coins (HAmount a) [] = 0) by (destruct a; reflexivity). rewrite Z in HL. cbn [w2 w_ext set_funds set_ext].
    destruct (a_funds A =? a_funds A), (u =? a_funds A); lia.
  - unfold qs. rewrite map_length. unfold addr in *. lia.
  - exists w3, (rev (map (fun p => (pay_asset p, pay_amount p)) ps)). split; [|split; [|split; [|split; [|split; [|split; [|split]]]]]].
    + unfold world_tx. cbn [tx_gas tx_env tx_signer tx_msg]. rewrite Hd. cbn [negb guard bind].
      assert (G : WorldModel.go Out A (S n) w e (JMsg u (to_distributor A (FClaim u ns cs))) = Ok (w3, None)); [|rewrite G; reflexivity].
      eapply go_send; [exact Hx| |].
      * change (WasmExecute (a_funds A) (ToFunds (FClaim u ns cs)) []) with (to_distributor A (FClaim u ns cs)). fold w2. unfold WorldModel.handle.
        pose proof (apart A HA) as HH. 
        replace (a_funds A =? a_controller A) with false by (symmetry; apply N.eqb_neq; intros E; decompose [and] HH; congruence).
        replace (a_funds A =? a_governance A) with false by (symmetry; apply N.eqb_neq; intros E; decompose [and] HH; congruence).
        replace (a_funds A =? a_membership A) with false by (symmetry; apply N.eqb_neq; intros E; decompose [and] HH; congruence).
        replace (a_funds A =? a_council A) with false by (symmetry; apply N.eqb_neq; intros E; decompose [and] HH; congruence).
        rewrite N.eqb_refl. change (w_funds w2) with (w_funds w). rewrite Hex. cbn [bind]. reflexivity.
      * replace (map funds_sub ps) with (map (fun p => plain (paying_msg p)) qs); [exact G1|]. unfold qs. rewrite map_map. apply map_ext. intros [a to y].
        unfold funds_sub, paying_msg. cbn. destruct a; reflexivity.
    + rewrite G3. unfold qs. rewrite !map_map, map_rev, map_map. f_equal. f_equal. apply map_ext_in. intros [a to y] Hin. cbn.
      pose proof (proj1 (P3 _ _ _) Hin) as (-> & _). reflexivity.
    + rewrite map_rev, map_map. cbn [fst]. apply NoDup_rev. exact P1.
    + intros a y. rewrite <- in_rev, in_map_iff. split.
      * intros ([a1 t1 y1] & E & Hin). cbn in E. injection E as -> ->. apply P3 in Hin. tauto.
      * intros (Ha & Hy & Hc). exists (mk_payment a u y). split; [reflexivity|]. apply P3. auto.
    + rewrite M3. exact P4.
    + repeat split; assumption.
    + exact M2.
    + exact M1.
Qed.
