(** The properties of the facade contracts. *)
From Verif Require Import Base OMap OMapLemmas Assets PollModel PollSpec PollProofs FundsModel MemberModel MemberSpec MemberProofs MemberFacts Msgs
  ControllerModel ControllerSpec ControllerProofs ControllerFacts TreasuryModel EnterpriseModel OutpostsModel
  WorldModel WorldSpec WorldProofs LiftSpec LiftFacts LiveResults FacadeModel FacadeV1Model FacadeSpec FacadeProofs FacadeQueries.

Lemma NoDup_app_intro {T} (a b : list T) : NoDup a -> NoDup b -> (forall x, In x a -> ~ In x b) -> NoDup (a ++ b).
Proof.
  intros Ha Hb H. induction Ha as [|x a Hx Ha IH]; [exact Hb|]. cbn. constructor.
  - intros Hi. apply in_app_or in Hi. destruct Hi as [Hi|Hi]; [contradiction|]. exact (H x (or_introl eq_refl) Hi).
  - apply IH. intros y Hy. apply H. right. exact Hy.
Qed.
Lemma firstn_In {T} n (l : list T) x : In x (firstn n l) -> In x l.
Proof. intros H. rewrite <- (firstn_skipn n l). apply in_or_app. left. exact H. Qed.

(** * One DAO, two addresses *)

Lemma by_enterprise_address X (Out : outside X) A F old registry w0 ts w e : new_dao A w0 -> w = world_run Out A w0 ts -> lasting w ->
  (forall q, facade_ask Out A F old w e (a_enterprise A) q = v2_query Out A w e (a_enterprise A) q) /\
  (forall r l, facade_adapt Out A F old registry w e (a_enterprise A) r = Ok l <-> exists l', l = inr l' /\ v2_adapt Out A w e (a_enterprise A) r = Ok l').
Proof.
  intros HN HW HL. assert (HX : wired A w) by (subst w; apply run_wired; assumption).
  pose proof (found_enterprise A F w (nd_addrs _ _ HN) HX) as HF. split.
  - intros q. unfold facade_ask, dispatch. rewrite HF. reflexivity.
  - intros r l. unfold facade_adapt, dispatch. rewrite HF. cbn [bind]. destruct (v2_adapt Out A w e (a_enterprise A) r) as [l'|]; cbn [bind]; split.
    + intros H. inversion H. eauto.
    + intros (l2 & -> & H). inversion H. reflexivity.
    + discriminate.
    + intros (l2 & _ & H). discriminate.
Qed.

Lemma by_treasury_address X (Out : outside X) A F old registry w0 ts w e : new_dao A w0 -> w = world_run Out A w0 ts -> lasting w ->
  tr_admin (w_treasury w0) = a_controller A -> treasury_kept A w ->
  (forall q, facade_ask Out A F old w e (a_treasury A) q = facade_ask Out A F old w e (a_enterprise A) q) /\
  (forall r, facade_adapt Out A F old registry w e (a_treasury A) r = facade_adapt Out A F old registry w e (a_enterprise A) r).
Proof.
  intros HN HW HL HT HK. assert (HX : wired A w) by (subst w; apply run_wired; assumption).
  pose proof (found_enterprise A F w (nd_addrs _ _ HN) HX) as HF.
  assert (HF' : get_facade A F w (a_treasury A) = Ok (NewDao (a_enterprise A))).
  { apply found_treasury; [exact HX|]. rewrite (admin_stays X Out A w0 ts w HN HW HK). exact HT. }
  split; intros; unfold facade_ask, facade_adapt, dispatch; rewrite HF, HF'; reflexivity.
Qed.

Lemma no_other_address X (Out : outside X) A F old registry (w : world X) e a : In a (dao_addrs A) -> a <> a_enterprise A -> a <> a_treasury A ->
  (forall q, is_ok (facade_ask Out A F old w e a q) = false) /\ (forall r, is_ok (facade_adapt Out A F old registry w e a r) = false).
Proof.
  intros H1 H2 H3. destruct (not_found A F w a H1 H2 H3) as (er & E).
  split; intros; unfold facade_ask, facade_adapt, dispatch; rewrite E; reflexivity.
Qed.

Lemma old_dao_address X (Out : outside X) A F old registry (w : world X) e a : ~ In a (dao_addrs A) -> fr_old_info F a = true ->
  (forall q, facade_ask Out A F old w e a q = v1_query e a (old a) q) /\
  (forall r l, facade_adapt Out A F old registry w e a r = Ok l <-> exists l', l = inl l' /\ v1_adapt registry a (old a) r = Ok l').
Proof.
  intros H1 H2. assert (E : get_facade A F w a = Ok (OldDao a)).
  { unfold get_facade, old_info_at. assert (Hd : is_dao A a = false).
    { destruct (is_dao A a) eqn:Ed; [|reflexivity]. exfalso. apply H1. unfold is_dao in Ed. apply existsb_exists in Ed. destruct Ed as (x & Hx & Ex). apply N.eqb_eq in Ex. subst. exact Hx. }
    rewrite Hd, H2. reflexivity. }
  split.
  - intros q. unfold facade_ask, dispatch. rewrite E. reflexivity.
  - intros r l. unfold facade_adapt, dispatch. rewrite E. cbn [bind]. destruct (v1_adapt registry a (old a) r) as [l'|]; cbn [bind]; split.
    + intros H. inversion H. eauto.
    + intros (l2 & -> & H). inversion H. reflexivity.
    + discriminate.
    + intros (l2 & _ & H). discriminate.
Qed.

(** * Answers *)

Section Answers.
Context {X : Type} (Out : outside X) (A : addrs) (w0 : world X) (ts : list tx) (w : world X).
Hypothesis HN : new_dao A w0.
Hypothesis HW : w = world_run Out A w0 ts.
Hypothesis HL : lasting w.

Lemma HX : wired A w.
Proof. subst w. apply run_wired; assumption. Qed.

Lemma own_addresses_ e : v2_query Out A w e (a_enterprise A) QTreasuryAddress = Ok (AnTreasury (a_treasury A)) /\
  exists att, v2_query Out A w e (a_enterprise A) QComponents =
    Ok (AnComponents (en_factory (w_enterprise w)) (Some (en_versioning (w_enterprise w))) (a_enterprise A) (a_funds A) (Some (wiring_of A att))).
Proof.
  destruct (wi_en _ _ HX) as (_ & att & Hc). split.
  - destruct (wired_by A w HX) as (att' & E). cbn [v2_query]. rewrite E. reflexivity.
  - exists att. cbn [v2_query]. unfold enterprise_at. rewrite N.eqb_refl. cbn [bind]. unfold query_component_contracts. rewrite Hc. reflexivity.
Qed.

Lemma reachable_member : member_reachable (w_member w).
Proof.
  destruct (membership_history X Out A w0 ts w HN HW) as (css & _ & E & _). destruct (nd_membership _ _ HN) as (e & i & Hi).
  exists e, i, (w_member w0), (concat css). auto.
Qed.

Lemma member_power_ e u : u <> 0 ->
  v2_query Out A w e (a_enterprise A) (QMemberInfo u) = Ok (AnMember (share (weight_of (w_member w) u) (total_now (w_member w)))).
Proof.
  intros Hu. cbn [v2_query]. unfold v2_member_info. destruct (wired_by A w HX) as (att & E). rewrite E. cbn [bind wiring_of c_membership].
  rewrite (membership_there A w). cbn [bind]. rewrite (weight_query _ _ Hu). cbn [bind]. fold (total_now (w_member w)). unfold share.
  destruct (N.eqb_spec (total_now (w_member w)) 0) as [|Ht]; [reflexivity|]. unfold dec_checked_from_ratio. rewrite (proj2 (N.eqb_neq _ _) Ht).
  assert (HLE : weight_of (w_member w) u <= total_now (w_member w)).
  { set (us := u :: filter (fun k => negb (k =? u)) (okeys (m_weights (members_of (w_member w))))).
    rewrite (total_is_sum (w_member w) us reachable_member); [subst us; rewrite lsum_cons; lia| |].
    - subst us. constructor; [|apply NoDup_filter, okeys_NoDup]. rewrite filter_In. intros (_ & H). rewrite N.eqb_refl in H. discriminate.
    - intros v Hv. subst us. cbn [In]. destruct (N.eq_dec u v) as [->|Hne]; [auto|right]. apply filter_In. split.
      + apply okeys_In. unfold weight_of, ogetN in Hv. destruct (oget (m_weights (members_of (w_member w))) v) eqn:Ev; [eauto|cbn in Hv; lia].
      + apply negb_true_iff, N.eqb_neq. congruence. }
  rewrite (proj2 (N.ltb_lt _ _) (ratio_le_one _ _ HLE)). reflexivity.
Qed.

Lemma shares_bound us t : t <> 0 -> lsum (fun u => weight_of (w_member w) u * DEC / t) us * t <= lsum (weight_of (w_member w)) us * DEC.
Proof.
  intros Ht. induction us as [|u us IH]; [reflexivity|]. rewrite !lsum_cons. pose proof (N.mul_div_le (weight_of (w_member w) u * DEC) t Ht). nia.
Qed.

Lemma powers_sum_ us : NoDup us -> lsum (fun u => share (weight_of (w_member w) u) (total_now (w_member w))) us <= DEC.
Proof.
  intros Hn. unfold share. destruct (N.eqb_spec (total_now (w_member w)) 0) as [|Ht].
  { rewrite (lsum_zero (fun _ : N => 0)) by reflexivity. lia. }
  pose proof (shares_bound us _ Ht) as H1.
  assert (H2 : lsum (weight_of (w_member w)) us <= total_now (w_member w)).
  { set (vs := us ++ filter (fun k => negb (existsb (N.eqb k) us)) (okeys (m_weights (members_of (w_member w))))).
    rewrite (total_is_sum (w_member w) vs reachable_member); [subst vs; rewrite lsum_app; lia| |].
    - subst vs. apply NoDup_app_intro; [exact Hn|apply NoDup_filter, okeys_NoDup|]. intros k H3 H4. apply filter_In in H4. destruct H4 as (_ & H4). apply negb_true_iff in H4.
      assert (existsb (N.eqb k) us = true) by (apply existsb_exists; exists k; split; [exact H3|apply N.eqb_refl]). congruence.
    - intros v Hv. subst vs. apply in_or_app. destruct (existsb (N.eqb v) us) eqn:Ee.
      + left. apply existsb_exists in Ee. destruct Ee as (x & H3 & H4). apply N.eqb_eq in H4. subst. exact H3.
      + right. apply filter_In. rewrite Ee. split; [|reflexivity]. apply okeys_In. unfold weight_of, ogetN in Hv.
        destruct (oget (m_weights (members_of (w_member w))) v) eqn:Ev; [eauto|cbn in Hv; lia]. }
  apply (N.mul_le_mono_pos_r _ _ (total_now (w_member w))); [lia|]. etransitivity; [exact H1|]. rewrite (N.mul_comm DEC). apply N.mul_le_mono_r. exact H2.
Qed.

Lemma stake_shown e asset u : backed Out w (en_type (w_enterprise w)) asset -> en_type (w_enterprise w) <> DaoMultisig -> u <> 0 ->
  exists s, v2_query Out A w e (a_enterprise A) (QUserStake u None None) = Ok (AnStake s) /\ staked_of s = weight_of (w_member w) u.
Proof.
  intros HB HM Hu. cbn [v2_query]. unfold v2_user_stake. destruct (wired_by A w HX) as (att & E). rewrite E, type_there. cbn [bind wiring_of c_membership].
  rewrite (membership_there A w). cbn [bind]. pose proof (weight_query (w_member w) u Hu) as HQ.
  destruct HB; try contradiction; try (rewrite HQ; cbn [bind]; eexists; split; [reflexivity|reflexivity]).
  - rewrite H. cbn [query_user_nft_stake]. unfold query_user_nfts, addr_validate. apply N.eqb_neq in Hu. rewrite Hu. cbn [bind]. eexists. split; [reflexivity|]. reflexivity.
  - rewrite H. cbn [query_user_nft_stake]. unfold query_user_nfts, addr_validate. apply N.eqb_neq in Hu. rewrite Hu. cbn [bind]. eexists. split; [reflexivity|]. reflexivity.
Qed.

Lemma stakes_sum_ e asset us : backed Out w (en_type (w_enterprise w)) asset -> en_type (w_enterprise w) <> DaoMultisig ->
  NoDup us -> ~ In 0 us -> (forall u, weight_of (w_member w) u <> 0 -> In u us) ->
  exists total stake, v2_query Out A w e (a_enterprise A) QTotalStaked = Ok (AnTotal total) /\
    (forall u, In u us -> v2_query Out A w e (a_enterprise A) (QUserStake u None None) = Ok (AnStake (stake u))) /\
    total = lsum (fun u => staked_of (stake u)) us.
Proof.
  intros HB HM Hn H0 Hc.
  exists (total_now (w_member w)), (fun u => match v2_query Out A w e (a_enterprise A) (QUserStake u None None) with Ok (AnStake s) => s | _ => USNone end).
  split; [|split].
  - cbn [v2_query]. unfold v2_total_staked. rewrite type_there. cbn [bind]. destruct (wired_by A w HX) as (att & E).
    destruct (en_type (w_enterprise w)); try contradiction; rewrite E; cbn [bind wiring_of c_membership]; rewrite (membership_there A w); reflexivity.
  - intros u Hu. destruct (stake_shown e asset u HB HM) as (s & E & _); [intros ->; contradiction|]. rewrite E. reflexivity.
  - rewrite (total_is_sum _ us reachable_member Hn Hc). apply lsum_ext_in. intros u Hu.
    destruct (stake_shown e asset u HB HM) as (s & E & Es); [intros ->; contradiction|]. rewrite E. symmetry. exact Es.
Qed.

Lemma status_agrees_ e id v : v2_query Out A w e (a_enterprise A) (QProposal id) = Ok (AnProposal v) ->
  fp_id v = id /\ v2_query Out A w e (a_enterprise A) (QProposalStatus id) = Ok (AnStatus (fp_status v) (fp_expires v) (fp_results v)).
Proof.
  cbn [v2_query]. intros H. apply bind_ok in H. destruct H as (v' & H & E). inversion E; subst v'; clear E.
  apply (proposal_seen Out A w e id v HX (history_keyed X Out A w0 ts w HN HW)) in H.
  destruct H as (p & pl & Hp & Hpl & H1 & H2 & H3 & H4 & H5 & H6). split; [exact H1|].
  unfold v2_proposal_status. rewrite (controller_seen A w HX). cbn [bind]. rewrite (proj2 (poll_seen Out A w id pl HX) Hpl). cbn [bind].
  unfold query_proposal_status. rewrite (proj2 (poll_seen Out A w id pl HX) Hpl), Hp. cbn [bind ok_or]. rewrite H6. cbn [bind]. rewrite H4, H5. reflexivity.
Qed.

Lemma views_in o s now l : forall vs v, to_views o s now l = Ok vs -> In v vs -> exists pl, In pl l /\ to_view o s now pl = Ok v.
Proof.
  induction l as [|pl l IH]; intros vs v H Hi; cbn [to_views] in H; [inversion H; subst; destruct Hi|].
  destruct (to_view o s now pl) as [x|er] eqn:E.
  - apply bind_ok in H. destruct H as (vs' & H1 & H). inversion H; subst. destruct Hi as [->|Hi]; [exists pl; cbn; auto|].
    destruct (IH _ _ H1 Hi) as (q & Hq & Eq). exists q. cbn. auto.
  - destruct er; try discriminate. destruct (IH _ _ H Hi) as (q & Hq & Eq). exists q. cbn. auto.
Qed.

Lemma list_agrees_ e filt start limit l v : v2_query Out A w e (a_enterprise A) (QProposals filt start limit) = Ok (AnProposals l) -> In v l ->
  v2_query Out A w e (a_enterprise A) (QProposal (fp_id v)) = Ok (AnProposal v).
Proof.
  cbn [v2_query]. intros H Hi. rewrite (controller_seen A w HX) in H. cbn [bind] in H. apply bind_ok in H. destruct H as (vs & H & E). inversion E; subst l; clear E.
  apply in_map_iff in Hi. destruct Hi as (x & <- & Hi). unfold query_proposals in H. destruct (oracle_components Out A w HX) as (att & HC & _). rewrite HC in H. cbn [bind] in H.
  apply bind_ok in H. destruct H as (pls & Hpls & H). destruct (views_in _ _ _ _ _ _ H Hi) as (pl & Hpl & Ev).
  assert (Hg : oget (g_polls (w_gov w)) (p_id pl) = Some pl).
  { cbn in Hpls. unfold gov_at in Hpls. rewrite N.eqb_refl in Hpls. cbn [bind] in Hpls. inversion Hpls; subst pls; clear Hpls. unfold query_polls, take in Hpl.
    assert (Hin : In pl (map snd (elems (g_polls (w_gov w))))).
    { apply firstn_In in Hpl. apply in_map_iff in Hpl. destruct Hpl as (kv & Ek & Hk). apply filter_In in Hk. apply in_map_iff. exists kv. tauto. }
    apply in_map_iff in Hin. destruct Hin as ([k q] & Eq & Hk). cbn in Eq. subst q. apply oget_In in Hk. rewrite (history_keyed X Out A w0 ts w HN HW _ _ Hk). exact Hk. }
  assert (Hid : vw_id x = p_id pl).
  { unfold to_view in Ev. apply bind_ok in Ev. destruct Ev as (? & _ & Ev). apply bind_ok in Ev. destruct Ev as (? & _ & Ev). apply bind_ok in Ev. destruct Ev as (? & _ & Ev). inversion Ev. reflexivity. }
  cbn [map_view fp_id]. rewrite Hid. unfold v2_proposal. rewrite (controller_seen A w HX). cbn [bind]. unfold query_proposal.
  rewrite (proj2 (poll_seen Out A w _ pl HX) Hg). cbn [bind]. rewrite Ev. reflexivity.
Qed.

Lemma treasury_seen : v2_treasury A w (a_enterprise A) = Ok (w_treasury w).
Proof.
  unfold v2_treasury. destruct (wired_by A w HX) as (att & E). rewrite E. cbn [bind wiring_of c_treasury]. unfold treasury_at. rewrite N.eqb_refl. reflexivity.
Qed.

Lemma stage_agrees_ e : exists b, v2_query Out A w e (a_enterprise A) QHasIncompleteMigration = Ok (AnBool b) /\
  v2_query Out A w e (a_enterprise A) QMigrationStage = Ok (AnStage (if b then StageInProgress else StageCompleted)) /\
  (b = true <-> og_stage (tr_old (w_treasury w)) = Some MigrationInProgress).
Proof.
  exists (has_incomplete_migration (w_treasury w)). cbn [v2_query]. unfold v2_has_incomplete. rewrite treasury_seen. cbn [bind]. split; [reflexivity|]. split; [reflexivity|].
  unfold has_incomplete_migration. destruct (og_stage (tr_old (w_treasury w))) as [[]|]; split; intros H; try reflexivity; try discriminate.
Qed.

Lemma due_same e r : is_released e r = reached e r.
Proof. destruct r; reflexivity. Qed.

Lemma claims_agree_ e u l : v2_query Out A w e (a_enterprise A) (QClaims u) = Ok (AnClaims l) ->
  v2_query Out A w e (a_enterprise A) (QReleasableClaims u) = Ok (AnClaims (filter (fun c => reached e (snd c)) l)).
Proof.
  cbn [v2_query]. intros H. apply bind_ok in H. destruct H as (l' & H & E). inversion E; subst l'; clear E. unfold v2_claims in H. unfold v2_releasable_claims.
  rewrite type_there in *. cbn [bind] in *. destruct (wired_by A w HX) as (att & E).
  assert (G : forall t, (m <- members_at A w (a_membership A) ;; query_claims t m u) = Ok l ->
    (r <- (m <- members_at A w (a_membership A) ;; query_releasable_claims e t m u) ;; Ok (AnClaims r)) = Ok (AnClaims (filter (fun c => reached e (snd c)) l))).
  { intros t. rewrite (membership_there A w). cbn [bind]. intros Q. unfold query_claims in Q. unfold query_releasable_claims.
    assert (F : forall f cs, claims_view f (filter (fun c => is_released e (cl_release c)) cs) = filter (fun c => reached e (snd c)) (claims_view f cs)).
    { intros f cs. unfold claims_view. induction cs as [|c cs IH]; [reflexivity|]. cbn [filter map snd]. rewrite (due_same e (cl_release c)).
      destruct (reached e (cl_release c)); cbn [map]; rewrite ?IH; reflexivity. }
    assert (F' : forall cs, nft_claims_view (filter (fun c => is_released e (nc_release c)) cs) = filter (fun c => reached e (snd c)) (nft_claims_view cs)).
    { intros cs. unfold nft_claims_view. induction cs as [|c cs IH]; [reflexivity|]. cbn [filter map snd]. rewrite (due_same e (nc_release c)).
      destruct (reached e (nc_release c)); cbn [map]; rewrite ?IH; reflexivity. }
    destruct t; destruct (w_member w); try discriminate; try (apply bind_ok in Q; destruct Q as (u' & Eu & Q); rewrite Eu; cbn [bind]); inversion Q; subst l;
      unfold releasable_claims, releasable_nft_claims; rewrite ?F, ?F'; reflexivity. }
  destruct (en_type (w_enterprise w)); rewrite ?E in *; cbn [bind wiring_of c_membership] in *; try (apply G; exact H). inversion H. reflexivity.
Qed.
End Answers.

Lemma own_addresses X (Out : outside X) A w0 ts w e : new_dao A w0 -> w = world_run Out A w0 ts -> lasting w ->
  v2_query Out A w e (a_enterprise A) QTreasuryAddress = Ok (AnTreasury (a_treasury A)) /\
  exists att, v2_query Out A w e (a_enterprise A) QComponents =
    Ok (AnComponents (en_factory (w_enterprise w)) (Some (en_versioning (w_enterprise w))) (a_enterprise A) (a_funds A) (Some (wiring_of A att))).
Proof. intros HN HW HL. exact (own_addresses_ Out A w0 ts w HN HW HL e). Qed.

Lemma member_power X (Out : outside X) A w0 ts w e u : new_dao A w0 -> w = world_run Out A w0 ts -> lasting w -> u <> 0 ->
  v2_query Out A w e (a_enterprise A) (QMemberInfo u) = Ok (AnMember (share (weight_of (w_member w) u) (total_now (w_member w)))).
Proof. intros HN HW HL. exact (member_power_ Out A w0 ts w HN HW HL e u). Qed.

Lemma powers_sum X (Out : outside X) A w0 ts w e power us : new_dao A w0 -> w = world_run Out A w0 ts -> lasting w ->
  NoDup us -> (forall u, In u us -> v2_query Out A w e (a_enterprise A) (QMemberInfo u) = Ok (AnMember (power u))) -> lsum power us <= 10 ^ 18.
Proof.
  intros HN HW HL Hn H. change (10 ^ 18) with DEC. etransitivity; [|exact (powers_sum_ Out A w0 ts w HN HW HL us Hn)].
  apply N.eq_le_incl. apply lsum_ext_in. intros u Hu. specialize (H u Hu). destruct (N.eq_dec u 0) as [->|Hu0].
  - exfalso. cbn [v2_query] in H. unfold v2_member_info in H. destruct (wired_by A w (HX Out A w0 ts w HN HW HL)) as (att & E). rewrite E in H. cbn [bind wiring_of c_membership] in H.
    rewrite (membership_there A w) in H. cbn in H. discriminate.
  - rewrite (member_power X Out A w0 ts w e u HN HW HL Hu0) in H. inversion H. reflexivity.
Qed.

Lemma stakes_sum X (Out : outside X) A w0 ts w e asset us : new_dao A w0 -> w = world_run Out A w0 ts -> lasting w ->
  backed Out w (en_type (w_enterprise w)) asset -> en_type (w_enterprise w) <> DaoMultisig ->
  NoDup us -> ~ In 0 us -> (forall u, weight_of (w_member w) u <> 0 -> In u us) ->
  exists total stake, v2_query Out A w e (a_enterprise A) QTotalStaked = Ok (AnTotal total) /\
    (forall u, In u us -> v2_query Out A w e (a_enterprise A) (QUserStake u None None) = Ok (AnStake (stake u)) /\ staked_of (stake u) = weight_of (w_member w) u) /\
    total = lsum (fun u => staked_of (stake u)) us.
Proof.
  intros HN HW HL HB HM Hn H0 Hc. destruct (stakes_sum_ Out A w0 ts w HN HW HL e asset us HB HM Hn H0 Hc) as (t & st & H1 & H2 & H3).
  exists t, st. split; [exact H1|]. split; [|exact H3]. intros u Hu. split; [exact (H2 u Hu)|].
  destruct (stake_shown Out A w0 ts w HN HW HL e asset u HB HM) as (s & E & Es); [intros ->; contradiction|]. rewrite (H2 u Hu) in E. inversion E; subst. exact Es.
Qed.

Lemma status_agrees X (Out : outside X) A w0 ts w e id v : new_dao A w0 -> w = world_run Out A w0 ts -> lasting w ->
  v2_query Out A w e (a_enterprise A) (QProposal id) = Ok (AnProposal v) ->
  fp_id v = id /\ v2_query Out A w e (a_enterprise A) (QProposalStatus id) = Ok (AnStatus (fp_status v) (fp_expires v) (fp_results v)).
Proof. intros HN HW HL. exact (status_agrees_ Out A w0 ts w HN HW HL e id v). Qed.

Lemma list_agrees X (Out : outside X) A w0 ts w e filt start limit l v : new_dao A w0 -> w = world_run Out A w0 ts -> lasting w ->
  v2_query Out A w e (a_enterprise A) (QProposals filt start limit) = Ok (AnProposals l) -> In v l ->
  v2_query Out A w e (a_enterprise A) (QProposal (fp_id v)) = Ok (AnProposal v).
Proof. intros HN HW HL. exact (list_agrees_ Out A w0 ts w HN HW HL e filt start limit l v). Qed.

Lemma proposal_is_the_stored_one X (Out : outside X) A w0 ts w e id v : new_dao A w0 -> w = world_run Out A w0 ts -> lasting w ->
  v2_query Out A w e (a_enterprise A) (QProposal id) = Ok (AnProposal v) ->
  exists p pl, oget (ct_proposals (w_ctl w)) id = Some p /\ oget (g_polls (w_gov w)) id = Some pl /\
    fp_type v = pi_type p /\ fp_actions v = pi_actions p /\ fp_results v = p_results pl /\ fp_expires v = AtTime (p_ends_at pl).
Proof.
  intros HN HW HL. cbn [v2_query]. intros H. apply bind_ok in H. destruct H as (v' & H & E). inversion E; subst v'; clear E.
  apply (proposal_seen Out A w e id v (HX Out A w0 ts w HN HW HL) (history_keyed X Out A w0 ts w HN HW)) in H.
  destruct H as (p & pl & H1 & H2 & _ & H3 & H4 & H5 & H6 & _). exists p, pl. auto 7.
Qed.

Lemma stage_agrees X (Out : outside X) A w0 ts w e : new_dao A w0 -> w = world_run Out A w0 ts -> lasting w ->
  exists b, v2_query Out A w e (a_enterprise A) QHasIncompleteMigration = Ok (AnBool b) /\
  v2_query Out A w e (a_enterprise A) QMigrationStage = Ok (AnStage (if b then StageInProgress else StageCompleted)) /\
  (b = true <-> og_stage (tr_old (w_treasury w)) = Some MigrationInProgress).
Proof. intros HN HW HL. exact (stage_agrees_ Out A w0 ts w HN HW HL e). Qed.

Lemma claims_agree X (Out : outside X) A w0 ts w e u l : new_dao A w0 -> w = world_run Out A w0 ts -> lasting w ->
  v2_query Out A w e (a_enterprise A) (QClaims u) = Ok (AnClaims l) ->
  v2_query Out A w e (a_enterprise A) (QReleasableClaims u) = Ok (AnClaims (filter (fun c => reached e (snd c)) l)).
Proof. intros HN HW HL. exact (claims_agree_ Out A w0 ts w HN HW HL e u l). Qed.

(** * Votes *)

Definition keyed_votes (g : gov) : Prop := forall voter id v, get_vote g voter id = Some v -> v_voter v = voter /\ voter <> 0.

Lemma cast_votes_keyed g e id o voter n g' : keyed_votes g -> cast_vote g e id o voter n = Ok g' -> keyed_votes g'.
Proof.
  intros HK H. unfold cast_vote in H. step H. step H. step H. step H. step H. step H. inversion H; subst. clear H.
  apply addr_validate_ok in Hx0. destruct Hx0 as [<- Hz]. intros a i v. unfold get_vote, votes_of. cbn [set_poll set_vote g_votes]. rewrite oget_oset.
  destruct (N.eqb_spec voter a) as [<-|]; [|apply HK]. cbn [dflt]. rewrite oget_oset. destruct (id =? i); [|apply HK]. intros E. inversion E. cbn. auto.
Qed.

Lemma execute_votes_keyed g e s m g' r : keyed_votes g -> gov_execute g e s m = Ok (g', r) -> keyed_votes g'.
Proof.
  intros HK H. unfold gov_execute in H. step H. destruct m; step H; inversion H; subst; clear H.
  - unfold create_poll in Hx0. step Hx0. step Hx0. inversion Hx0; subst. exact HK.
  - eapply cast_votes_keyed; eassumption.
  - unfold update_votes in Hx0. step Hx0. clear Hx1 Hx. revert g HK Hx0. induction x0 as [|v vs IH]; intros g HK H; cbn [fold_res] in H; [inversion H; subst; exact HK|].
    apply bind_ok in H. destruct H as (g1 & H1 & H). apply (IH g1); [|exact H].
    unfold update_vote in H1. apply bind_ok in H1. destruct H1 as (q & _ & H1). destruct (p_status q); [|inversion H1; subst; exact HK..].
    destruct (e_time e <? ends_at); [|inversion H1; subst; exact HK]. apply bind_ok in H1. destruct H1 as (? & _ & H1). eapply cast_votes_keyed; eassumption.
  - unfold end_poll in Hx0. step Hx0. step Hx0. step Hx0. inversion Hx0; subst. exact HK.
Qed.

Lemma history_votes_keyed X (Out : outside X) A w0 ts w : new_dao A w0 -> w = world_run Out A w0 ts -> keyed_votes (w_gov w).
Proof.
  intros HN HW. destruct (governance_history X Out A w0 ts w HN HW) as (css & _ & E & _). rewrite E.
  assert (H0 : keyed_votes (w_gov w0)) by (rewrite (nd_governance _ _ HN); intros a id p; unfold get_vote, votes_of; cbn; discriminate).
  revert H0. generalize (w_gov w0). generalize (concat css). clear. induction l as [|c cs IH]; intros g H; [exact H|]. cbn. apply IH.
  unfold gov_step. destruct (gov_execute g (gc_env c) (gc_sender c) (gc_msg c)) as [[g' r]|] eqn:E; [|exact H]. eapply execute_votes_keyed; eassumption.
Qed.

Lemma votes_agree X (Out : outside X) A w0 ts w e id start limit l v : new_dao A w0 -> w = world_run Out A w0 ts -> lasting w ->
  v2_query Out A w e (a_enterprise A) (QProposalVotes id start limit) = Ok (AnVotes l) -> In v l ->
  v2_query Out A w e (a_enterprise A) (QMemberVote (v_voter v) id) = Ok (AnVote (Some v)).
Proof.
  intros HN HW HL H Hi. cbn [v2_query] in *. unfold v2_proposal_votes, v2_member_vote, v2_governance in *.
  pose proof (HX Out A w0 ts w HN HW HL) as HW'. rewrite (controller_seen A w HW') in *. cbn [bind] in *.
  destruct (oracle_components Out A w HW') as (att & HC & _). rewrite HC in *. cbn [bind wiring_of c_governance] in *. unfold gov_at in *. rewrite N.eqb_refl in *. cbn [bind] in *.
  inversion H; subst l; clear H. unfold query_poll_voters, take in Hi. apply firstn_In in Hi. apply in_map_iff in Hi. destruct Hi as ([k v'] & Ev & Hi). cbn in Ev. subst v'.
  apply filter_In in Hi. destruct Hi as (Hi & _). apply in_flat_map in Hi. destruct Hi as ([k' m] & Hk & Hi). cbn [fst snd] in Hi.
  destruct (oget m id) as [v'|] eqn:Em; [|destruct Hi]. destruct Hi as [Hi|[]]. inversion Hi; subst. clear Hi. apply oget_In in Hk.
  assert (Hg : get_vote (w_gov (world_run Out A w0 ts)) k id = Some v) by (unfold get_vote, votes_of; rewrite Hk; exact Em).
  destruct (history_votes_keyed X Out A w0 ts _ HN eq_refl _ _ _ Hg) as (E1 & E2). rewrite E1. unfold query_poll_voter, addr_validate.
  apply N.eqb_neq in E2. rewrite E2. cbn [bind]. rewrite Hg. reflexivity.
Qed.

(** * What [DaoInfo] says *)

Lemma version_parts a b c : a < M64 -> b < M64 -> c < M64 ->
  version_major (version a b c) = a /\ version_minor (version a b c) = b /\ version_patch (version a b c) = c.
Proof.
  intros Ha Hb Hc. unfold version_major, version_minor, version_patch, version.
  assert (HM : M64 <> 0) by discriminate.
  assert (E1 : ((a * M64 + b) * M64 + c) / M64 = a * M64 + b) by (rewrite N.div_add_l by exact HM; rewrite (N.div_small c) by exact Hc; lia).
  split; [|split].
  - rewrite <- N.div_div by exact HM. rewrite E1. rewrite N.div_add_l by exact HM. rewrite (N.div_small b) by exact Hb. lia.
  - rewrite E1. rewrite N.add_comm, N.mod_add by exact HM. apply N.mod_small. exact Hb.
  - rewrite N.add_comm, N.mod_add by exact HM. apply N.mod_small. exact Hc.
Qed.

Lemma code_version_exact a b c n : a < 2 ^ 64 -> b < 2 ^ 64 -> c < 2 ^ 64 ->
  code_version (version a b c) = Ok n <-> n = code_of (a, b, c) /\ n < 2 ^ 64.
Proof.
  intros Ha Hb Hc. change (2 ^ 64) with M64 in *. destruct (version_parts a b c Ha Hb Hc) as (E1 & E2 & E3). unfold code_version, u64_checked. rewrite E1, E2, E3.
  unfold code_of. cbn [fst snd]. remember M64 as K. clear HeqK E1 E2 E3. split.
  - intros H. destruct (N.ltb_spec (a * 10000) K); [|discriminate]. cbn [bind] in H. destruct (N.ltb_spec (b * 100) K); [|discriminate]. cbn [bind] in H.
    destruct (N.ltb_spec (a * 10000 + b * 100) K); [|discriminate]. cbn [bind] in H. destruct (N.ltb_spec (a * 10000 + b * 100 + c) K); [|discriminate]. inversion H. split; lia.
  - intros (-> & H). rewrite (proj2 (N.ltb_lt (a * 10000) K)) by lia. cbn [bind]. rewrite (proj2 (N.ltb_lt (b * 100) K)) by lia. cbn [bind].
    rewrite (proj2 (N.ltb_lt (a * 10000 + b * 100) K)) by lia. cbn [bind]. rewrite (proj2 (N.ltb_lt (a * 10000 + b * 100 + c) K)) by lia. f_equal. lia.
Qed.

Lemma small_codes u v : small_version u -> small_version v -> code_of u = code_of v -> u = v.
Proof.
  destruct u as [[a b] c], v as [[a' b'] c']. unfold small_version, code_of. cbn [fst snd]. intros (H1 & H2) (H3 & H4) H.
  assert (a = a') by nia. subst. assert (b = b') by lia. subst. assert (c = c') by lia. subst. reflexivity.
Qed.

Lemma listed_exact {X} (Out : outside X) A (w : world X) t asset period :
  membership_asset Out A w (a_enterprise A) t (en_version (w_enterprise w)) (a_membership A) = Ok (asset, period) <-> listed Out A w t asset period.
Proof.
  unfold membership_asset. rewrite (membership_there A w). cbn [bind]. split.
  - destruct t.
    + unfold denom_config. destruct (w_member w) eqn:Em; try discriminate. destruct (st_asset s) eqn:Ea; try discriminate. intros H. inversion H; subst. eapply ListedDenom; eassumption.
    + unfold token_config. destruct (w_member w) eqn:Em; try discriminate. destruct (st_asset s) eqn:Ea; try discriminate. intros H. inversion H; subst. eapply ListedToken; eassumption.
    + destruct (N.leb_spec (version 1 2 0) (en_version (w_enterprise w))) as [Hv|Hv].
      * unfold nft_contract_config. destruct (w_member w) eqn:Em; try discriminate. cbn [bind]. intros H. inversion H; subst.
        destruct (ns_contract s) eqn:Ea; [eapply ListedNft|eapply ListedClass]; eassumption.
      * unfold nft_config. destruct (w_member w) eqn:Em; try discriminate. destruct (ns_contract s) eqn:Ea; cbn [bind].
        -- intros H. inversion H; subst. eapply ListedNft; eassumption.
        -- destruct (x_ics721 Out (w_ext w) _ _) as [[c|]|] eqn:Ex; cbn [bind ok_or]; try discriminate. intros H. inversion H; subst. eapply ListedBridged; eassumption.
    + intros H. inversion H; subst. constructor.
  - intros H. destruct H as [s d E1 E2|s d E1 E2|s c E1 E2|s p k E1 E2 E3|s p k c E1 E2 E3 E4|].
    + rewrite E1. cbn. rewrite E2. reflexivity.
    + rewrite E1. cbn. rewrite E2. reflexivity.
    + rewrite E1. cbn. rewrite E2. destruct (version 1 2 0 <=? en_version (w_enterprise w)); reflexivity.
    + rewrite E1. apply N.leb_le in E3. rewrite E3. cbn. rewrite E2. reflexivity.
    + rewrite E1. apply N.leb_gt in E3. rewrite E3. cbn. rewrite E2, E4. reflexivity.
    + reflexivity.
Qed.

Lemma dao_info_exact X (Out : outside X) A w0 ts w e i : new_dao A w0 -> w = world_run Out A w0 ts -> lasting w ->
  v2_query Out A w e (a_enterprise A) QDaoInfo = Ok (AnInfo i) <->
  fi_creation i = en_creation (w_enterprise w) /\ fi_metadata i = en_metadata (w_enterprise w) /\ fi_type i = en_type (w_enterprise w) /\
  fi_version i = en_version (w_enterprise w) /\ fi_factory i = en_factory (w_enterprise w) /\ fi_funds i = a_funds A /\
  settings_shown (ct_config (w_ctl w)) (fi_gov i) /\ listed Out A w (en_type (w_enterprise w)) (fi_membership i) (fg_unlocking (fi_gov i)) /\
  council_shown (ct_council (w_ctl w)) (firstn 100 (okeys (m_weights (members_of (w_council w))))) (fi_council i) /\
  code_version (en_version (w_enterprise w)) = Ok (fi_code_version i).
Proof.
  intros HN HW HL. pose proof (HX Out A w0 ts w HN HW HL) as HW'. cbn [v2_query].
  destruct (wi_en _ _ HW') as (_ & att & Hc). destruct (oracle_components Out A w HW') as (att' & HC & _).
  assert (Hk : members_at A w (a_council A) = Ok (w_council w)).
  { unfold members_at. assert (Hne : (a_council A =? a_membership A) = false).
    { pose proof (nd_addrs _ _ HN) as ND. apply N.eqb_neq. intros E. unfold dao_addrs in ND. do 3 (inversion ND as [|? ? _ ND']; subst; clear ND; rename ND' into ND).
      inversion ND as [|? ? Q _]; subst. apply Q. rewrite <- E. left. reflexivity. }
    unfold addr in *. rewrite Hne, N.eqb_refl. reflexivity. }
  assert (Hl : query_members (members_of (w_council w)) None (Some 1000) = Ok (firstn 100 (elems (m_weights (members_of (w_council w)))))) by reflexivity.
  assert (HE : v2_dao_info Out A w (a_enterprise A) =
    ('(asset, period) <- membership_asset Out A w (a_enterprise A) (en_type (w_enterprise w)) (en_version (w_enterprise w)) (a_membership A) ;;
     code <- code_version (en_version (w_enterprise w)) ;;
     Ok (mk_facade_info (en_creation (w_enterprise w)) (en_metadata (w_enterprise w))
        (let g := ct_config (w_ctl w) in mk_facade_gov (gc_quorum g) (gc_threshold g) (dflt (gc_threshold g) (gc_veto_threshold g)) (gc_vote_duration g)
           period (gc_minimum_deposit g) (gc_allow_early g))
        (option_map (fun cc => mk_facade_council (firstn 100 (okeys (m_weights (members_of (w_council w))))) (cc_allowed cc) (cc_quorum cc) (cc_threshold cc)) (ct_council (w_ctl w)))
        (en_type (w_enterprise w)) asset (en_factory (w_enterprise w)) (a_funds A) code (en_version (w_enterprise w))))).
  { unfold v2_dao_info. unfold enterprise_at at 1. rewrite N.eqb_refl. cbn [bind]. unfold query_dao_info, query_component_contracts. rewrite Hc. cbn [bind ok_or wiring_of c_controller c_funds].
    unfold controller_at. rewrite N.eqb_refl. cbn [bind]. unfold query_gov_config. rewrite HC. cbn [bind wiring_of c_membership Msgs.c_council].
    destruct (membership_asset Out A w (a_enterprise A) (en_type (w_enterprise w)) (en_version (w_enterprise w)) (a_membership A)) as [[asset period]|]; [|reflexivity]. cbn [bind].
    rewrite Hk. cbn [bind]. rewrite Hl. cbn [bind]. unfold okeys. rewrite firstn_map. reflexivity. }
  rewrite HE. clear HE Hl Hk HC Hc. split.
  - intros H. destruct (membership_asset Out A w (a_enterprise A) (en_type (w_enterprise w)) (en_version (w_enterprise w)) (a_membership A)) as [[asset period]|] eqn:Ea; [|discriminate].
    apply listed_exact in Ea. cbn [bind] in H. destruct (code_version (en_version (w_enterprise w))) as [code|]; [|discriminate]. cbn [bind] in H. inversion H; subst i; clear H.
    cbn [fi_creation fi_metadata fi_type fi_version fi_factory fi_funds fi_gov fi_council fi_membership fi_code_version fg_unlocking].
    repeat (split; [reflexivity|]). split; [unfold settings_shown; cbn; auto 7|]. split; [exact Ea|]. split; [|reflexivity]. destruct (ct_council (w_ctl w)); cbn; auto.
  - destruct i as [i1 i2 [g1 g2 g3 g4 g5 g6 g7] i4 i5 i6 i7 i8 i9 i10]. unfold settings_shown. cbn.
    intros (-> & -> & -> & -> & -> & -> & (-> & -> & -> & -> & -> & ->) & HLi & HCo & HV). apply listed_exact in HLi. rewrite HLi. cbn [bind]. rewrite HV. cbn [bind]. do 2 f_equal. f_equal.
    destruct (ct_council (w_ctl w)) as [cc|], i4 as [[m k q t]|]; cbn in *; try contradiction; [|reflexivity]. destruct HCo as (-> & -> & -> & ->). reflexivity.
Qed.

(** * DAOs of the old code *)

Lemma map_action_exact registry a o : map_action registry a = Ok o <-> translates registry a o.
Proof.
  split.
  - destruct a; cbn [map_action]; try (intros H; inversion H; subst; constructor; fail); try discriminate.
    + destruct (N.leb_spec (version 1 0 0) v) as [Hv|Hv]; intros H; apply bind_ok in H; destruct H as (i & Hi & H); inversion H; subst; [eapply TrUpgradeNew|eapply TrUpgradeOld]; eassumption.
    + destruct target; cbn; [discriminate|]. intros H. inversion H; subst. constructor.
  - intros H. destruct H; try reflexivity.
    + cbn [map_action]. apply N.leb_le in H. rewrite H, H0. reflexivity.
    + cbn [map_action]. apply N.leb_gt in H. rewrite H, H0. reflexivity.
Qed.

Lemma translated_plain registry a : plain_action a -> exists o, translates registry a o /\ unmap_action o = a.
Proof.
  destruct a; cbn; try contradiction; try (intros _; eexists; split; [constructor|reflexivity]).
  all: destruct target; try contradiction; intros _; eexists; (split; [constructor|reflexivity]).
Qed.

Lemma map_actions_exact registry l os : map_actions registry l = Ok os <-> Forall2 (translates registry) l os.
Proof.
  unfold map_actions. revert os. induction l as [|a l IH]; intros os; cbn [map_res].
  - split; intros H; [inversion H; constructor|inversion H; reflexivity].
  - split.
    + intros H. apply bind_ok in H. destruct H as (o & Ho & H). apply bind_ok in H. destruct H as (os' & Hs & H). inversion H; subst. constructor; [apply map_action_exact; exact Ho|apply IH; exact Hs].
    + intros H. inversion H as [|? o ? os' Ho Hs]; subst. apply map_action_exact in Ho. rewrite Ho. cbn [bind]. apply IH in Hs. rewrite Hs. reflexivity.
Qed.

Lemma old_adapt_exact registry dao d i r l : od_info d = Ok i ->
  v1_adapt registry dao d r = Ok l <->
  exists acts, Forall2 (translates registry) (actions_in r) acts /\ old_messages dao (oi_type i) (oi_membership i) acts r = Some l.
Proof.
  intros Hi. assert (HI : exists v, v1_dao_info d = Ok v /\ fi_type v = oi_type i /\ fi_membership v = oi_membership i).
  { unfold v1_dao_info. rewrite Hi. eexists. split; [reflexivity|split; reflexivity]. }
  destruct HI as (v & Hv & Ht & Hm).
  assert (HA : forall acts, map_actions registry (actions_in r) = Ok acts <-> Forall2 (translates registry) (actions_in r) acts) by (intros; apply map_actions_exact).
  setoid_rewrite <- HA. clear HA.
  destruct r as [actions owner|actions owner n|actions owner n|actions owner tk|actions owner|id o|id o|id|st|un|]; cbn [v1_adapt actions_in old_messages].
  - destruct (map_actions registry actions) as [acts|]; cbn [bind]; split.
    + intros H. exists acts. split; [reflexivity|]. inversion H. reflexivity.
    + intros (acts' & H1 & H2). inversion H1; subst. inversion H2. reflexivity.
    + discriminate.
    + intros (acts' & H1 & _). discriminate.
  - split; [discriminate|]. intros (? & _ & H). discriminate.
  - rewrite Hv. cbn [bind]. rewrite Ht, Hm. destruct (oi_type i).
    2:{ unfold addr_validate. destruct (oi_membership i =? 0); cbn [bind].
      - split; [discriminate|]. intros (? & _ & H). discriminate.
      - destruct (map_actions registry actions) as [acts|]; cbn [bind]; split.
        + intros H. exists acts. split; [reflexivity|]. inversion H. reflexivity.
        + intros (acts' & H1 & H2). inversion H1; subst. inversion H2. reflexivity.
        + discriminate.
        + intros (acts' & H1 & _). discriminate. }
    all: split; [discriminate|]; intros (? & _ & H); discriminate.
  - split; [discriminate|]. intros (? & _ & H). discriminate.
  - destruct (map_actions registry actions) as [acts|]; cbn [bind]; split.
    + intros H. exists acts. split; [reflexivity|]. inversion H. reflexivity.
    + intros (acts' & H1 & H2). inversion H1; subst. inversion H2. reflexivity.
    + discriminate.
    + intros (acts' & H1 & _). discriminate.
  - split; [intros H; exists []; split; [reflexivity|]; inversion H; reflexivity|]. intros (? & _ & H). inversion H. reflexivity.
  - split; [intros H; exists []; split; [reflexivity|]; inversion H; reflexivity|]. intros (? & _ & H). inversion H. reflexivity.
  - split; [intros H; exists []; split; [reflexivity|]; inversion H; reflexivity|]. intros (? & _ & H). inversion H. reflexivity.
  - destruct st; cbn [v1_stake]; rewrite ?Hv; cbn [bind]; rewrite ?Hm; unfold addr_validate; try (destruct (oi_membership i =? 0); cbn [bind]).
    all: try (split; [discriminate|]; intros (? & _ & H); discriminate).
    all: split; [intros H; exists []; split; [reflexivity|]; inversion H; reflexivity|]; intros (? & _ & H); inversion H; reflexivity.
  - destruct un; try (split; [discriminate|]; intros (? & _ & H); discriminate).
    all: split; [intros H; exists []; split; [reflexivity|]; inversion H; reflexivity|]; intros (? & _ & H); inversion H; reflexivity.
  - split; [intros H; exists []; split; [reflexivity|]; inversion H; reflexivity|]. intros (? & _ & H). inversion H. reflexivity.
Qed.

Lemma old_judged g p ends : real_votes (op_results p) (op_total p) -> op_expires p = AtTime ends ->
  forall v, fg_quorum v = og_quorum g -> fg_threshold v = og_threshold g -> fg_veto v = dflt (og_threshold g) (og_veto g) ->
  exists st, resolve_status (unmap_proposal p) v = Ok st /\ judged_by (og_quorum g) (og_threshold g) (dflt (og_threshold g) (og_veto g)) (op_results p) (op_total p) st.
Proof.
  intros (H1 & H2 & H3) HE v E1 E2 E3. unfold resolve_status, unmap_proposal. cbn [fp_expires fp_id fp_results fp_total]. rewrite HE. eexists. split; [reflexivity|].
  rewrite E1, E2, E3. set (pl := mk_poll _ _ _ _ _ _ _ _ _ _).
  assert (V := final_status_verdict pl (op_total p)). unfold judged_by. subst pl. cbn [p_quorum p_threshold p_veto_threshold p_results dflt] in V. apply V.
  - intros k r Hk. assert (k <= 3) by (apply H1; rewrite Hk; discriminate). lia.
  - exact H2.
  - exact H3.
Qed.

Lemma old_status_shown e dao d i id p ends : od_proposal d id = Ok p -> od_info d = Ok i -> op_expires p = AtTime ends -> real_votes (op_results p) (op_total p) ->
  exists s, v1_query e dao d (QProposal id) =
      Ok (AnProposal (mk_facade_proposal (op_id p) (op_type p) s (op_expires p) (map unmap_action (op_actions p)) (op_results p) (op_total p))) /\
    v1_query e dao d (QProposalStatus id) = Ok (AnStatus s (op_expires p) (op_results p)) /\ shown e (oi_gov i) p ends s.
Proof.
  intros Hp Hi HE HR. cbn [v1_query]. unfold v1_proposal. rewrite Hp. cbn [bind]. unfold v1_dao_info. rewrite Hi. cbn [bind fi_gov].
  set (v := mk_facade_gov _ _ _ _ _ _ _).
  destruct (old_judged (oi_gov i) p ends HR HE v eq_refl eq_refl eq_refl) as (st & HS & HJ).
  assert (HF : exists s, fix_proposal e v (unmap_proposal p) = Ok (FacadeV1Model.with_status (unmap_proposal p) s) /\ shown e (oi_gov i) p ends s).
  { unfold fix_proposal. rewrite HS. cbn [unmap_proposal fp_status fp_expires fp_type]. rewrite HE. cbn [is_expired].
    destruct (op_status p) eqn:Es; cbn [unmap_status].
    - destruct (N.leb_spec ends (e_time e)) as [Ht|Ht].
      + cbn [bind]. unfold judged_by in HJ. destruct st as [t|o n|r]; [inversion HJ| |].
        * exists PSPassed. split; [reflexivity|]. eapply (ShEndedPassed _ _ _ _ n); try assumption. inversion HJ; subst; exact HJ.
        * exists PSRejected. split; [reflexivity|]. eapply ShEndedRejected; eassumption.
      + destruct (match op_type p with General => fg_allow_early v | Council => true end) eqn:Ea.
        * cbn [bind]. eexists. split; [reflexivity|]. replace (match st with InProgress _ => PSInProgress | _ => _ end) with
            (match st with Rejected (QuorumNotReached | ThresholdNotReached | QuorumAndThresholdNotReached) => PSInProgress | _ => PSCanExecuteEarly end).
          -- apply ShEarly; try assumption. destruct (op_type p); [right; exact Ea|left; reflexivity].
          -- destruct st; [inversion HJ|reflexivity|reflexivity].
        * cbn [bind]. exists PSInProgress. split; [reflexivity|]. destruct (op_type p) eqn:Et; [|discriminate]. apply ShWaiting; assumption.
    - exists PSPassed. split; [reflexivity|]. apply ShPassed. exact Es.
    - exists PSRejected. split; [reflexivity|]. apply ShRejected. exact Es.
    - exists PSExecuted. split; [reflexivity|]. apply ShExecuted. exact Es. }
  destruct HF as (s & HF & HSh). rewrite HF. exists s. split; [reflexivity|]. split; [reflexivity|exact HSh].
Qed.

Lemma shown_once e g p ends s1 s2 : shown e g p ends s1 -> shown e g p ends s2 -> s1 = s2.
Proof.
  intros H1 H2. destruct H1 as [E|E|E|n E Ht HJ|r E Ht HJ|E Ht Ety Ea|st E Ht Ety HJ];
    inversion H2 as [E'|E'|E'|n' E' Ht' HJ'|r' E' Ht' HJ'|E' Ht' Ety' Ea'|st' E' Ht' Ety' HJ']; subst; try congruence; try lia.
  - pose proof (verdict_functional _ _ _ _ _ _ _ _ _ _ HJ HJ'). discriminate.
  - pose proof (verdict_functional _ _ _ _ _ _ _ _ _ _ HJ HJ'). discriminate.
  - destruct Ety'; congruence.
  - destruct Ety; congruence.
  - pose proof (verdict_functional _ _ _ _ _ _ _ _ _ _ HJ HJ'). subst. reflexivity.
Qed.

Lemma old_list_shown e dao d i f s n l id v : od_info d = Ok i -> (forall p, In p l -> exists ends, op_expires p = AtTime ends) ->
  (forall p, In p l -> real_votes (op_results p) (op_total p)) -> (forall p, In p l -> od_proposal d (op_id p) = Ok p) ->
  od_proposals d f s n = Ok l -> fp_id v = id ->
  exists vs, v1_query e dao d (QProposals f s n) = Ok (AnProposals vs) /\ map fp_id vs = map op_id l /\
    (In v vs -> v1_query e dao d (QProposal id) = Ok (AnProposal v)).
Proof.
  intros Hi HE HR HP Hl Hid. cbn [v1_query]. unfold v1_proposals. rewrite Hl. cbn [bind]. destruct (v1_dao_info d) as [x|] eqn:Ex; [|unfold v1_dao_info in Ex; rewrite Hi in Ex; discriminate].
  cbn [bind].
  assert (HQ : forall p, In p l -> exists u, fix_proposal e (fi_gov x) (unmap_proposal p) = Ok u /\ fp_id u = op_id p /\ v1_query e dao d (QProposal (op_id p)) = Ok (AnProposal u)).
  { intros p Hp. destruct (HE p Hp) as (ends & Hends). destruct (old_status_shown e dao d i (op_id p) p ends (HP p Hp) Hi Hends (HR p Hp)) as (st & H1 & _).
    cbn [v1_query] in *. unfold v1_proposal in *. rewrite (HP p Hp) in *. cbn [bind] in *. rewrite Ex in *. cbn [bind] in *.
    destruct (fix_proposal e (fi_gov x) (unmap_proposal p)) as [u|]; [|discriminate]. exists u. split; [reflexivity|]. cbn [bind] in *. inversion H1. split; reflexivity. }
  clear HE HR HP Hl.
  assert (HM : exists vs, map_res (fun p => fix_proposal e (fi_gov x) (unmap_proposal p)) l = Ok vs /\ map fp_id vs = map op_id l /\
     forall u, In u vs -> v1_query e dao d (QProposal (fp_id u)) = Ok (AnProposal u)).
  { induction l as [|p l IH]; cbn [map_res]; [exists []; repeat split; intros u []|].
    destruct (HQ p (or_introl eq_refl)) as (u & E1 & E2 & E3). rewrite E1. cbn [bind]. destruct IH as (vs & E4 & E5 & E6); [intros q Hq; apply HQ; right; exact Hq|].
    rewrite E4. cbn [bind]. exists (u :: vs). split; [reflexivity|]. split; [cbn; rewrite E2, E5; reflexivity|]. intros u' [<-|Hu]; [rewrite E2; exact E3|apply E6; exact Hu]. }
  destruct HM as (vs & E1 & E2 & E3). exists vs. rewrite E1. split; [reflexivity|]. split; [exact E2|]. intros Hv. rewrite <- Hid. exact (E3 v Hv).
Qed.

(** * Claims, whitelists, what is left of the migration *)

Lemma claims_shown X (Out : outside X) A w0 ts w e asset u : new_dao A w0 -> w = world_run Out A w0 ts -> lasting w ->
  backed Out w (en_type (w_enterprise w)) asset -> u <> 0 ->
  v2_query Out A w e (a_enterprise A) (QClaims u) = Ok (AnClaims (booked_claims (w_member w) u)).
Proof.
  intros HN HW HL HB Hu. pose proof (HX Out A w0 ts w HN HW HL) as HW'. cbn [v2_query]. unfold v2_claims. rewrite (type_there A w). cbn [bind].
  destruct (wired_by A w HW') as (att & E). assert (Hv : addr_validate u = Ok u) by (unfold addr_validate; apply N.eqb_neq in Hu; rewrite Hu; reflexivity).
  inversion HB; rewrite ?E; cbn [bind wiring_of c_membership]; rewrite ?(membership_there A w); cbn [bind]; try match goal with Hm : w_member w = _ |- _ => rewrite Hm end;
    cbn [query_claims]; rewrite ?Hv; reflexivity.
Qed.

Lemma whitelists_shown X (Out : outside X) A w0 ts w e : new_dao A w0 -> w = world_run Out A w0 ts -> lasting w ->
  (forall s l, v2_query Out A w e (a_enterprise A) (QAssetWhitelist s l) = (r <- query_asset_whitelist (w_treasury w) s l ;; Ok (AnAssets r))) /\
  (forall s l, v2_query Out A w e (a_enterprise A) (QNftWhitelist s l) = (r <- query_nft_whitelist (w_treasury w) s l ;; Ok (AnNfts r))).
Proof. intros HN HW HL. cbn [v2_query]. rewrite (treasury_seen Out A w0 ts w HN HW HL). split; reflexivity. Qed.

Lemma is_empty_false {V} (m : omap V) : is_empty m = false <-> exists k, ohas m k = true.
Proof.
  unfold is_empty. destruct (elems m) as [|[k v] l] eqn:E.
  - split; [discriminate|]. intros (k & H). apply ohas_true in H. destruct H as (v & H). apply oget_In in H. rewrite E in H. destruct H.
  - split; [|reflexivity]. intros _. exists k. apply ohas_true. exists v. apply oget_In. rewrite E. left. reflexivity.
Qed.

Lemma unmoved_shown X (Out : outside X) A w0 ts w e b : new_dao A w0 -> w = world_run Out A w0 ts -> lasting w ->
  v2_query Out A w e (a_enterprise A) QHasUnmoved = Ok (AnBool b) -> b = true <-> version 1 0 2 <= en_version (w_enterprise w) /\ left_behind (w_treasury w).
Proof.
  intros HN HW HL H. cbn [v2_query] in H. apply bind_ok in H. destruct H as (b' & H & Eb). inversion Eb; subst b'; clear Eb. unfold v2_has_unmoved in H.
  apply bind_ok in H. destruct H as (i & Hi & H).
  assert (Ev : fi_version i = en_version (w_enterprise w)).
  { assert (Hq : v2_query Out A w e (a_enterprise A) QDaoInfo = Ok (AnInfo i)) by (cbn [v2_query]; rewrite Hi; reflexivity).
    apply (proj1 (dao_info_exact X Out A w0 ts w e i HN HW HL)) in Hq. apply Hq. }
  rewrite Ev in H. rewrite (treasury_seen Out A w0 ts w HN HW HL) in H. cbn [bind] in H. destruct (N.ltb_spec (en_version (w_enterprise w)) (version 1 0 2)) as [L|L].
  - injection H as <-. split; [discriminate|]. intros (L' & _). exfalso. exact (N.lt_irrefl _ (N.lt_le_trans _ _ _ L L')).
  - injection H as <-. unfold has_unmoved, left_behind.
    assert (Q : negb (is_empty (og_stakes (tr_old (w_treasury w)))) || negb (is_empty (og_nfts (tr_old (w_treasury w)))) || negb (is_empty (og_claims (tr_old (w_treasury w)))) = true <->
      exists k, ohas (og_stakes (tr_old (w_treasury w))) k = true \/ ohas (og_nfts (tr_old (w_treasury w))) k = true \/ ohas (og_claims (tr_old (w_treasury w))) k = true).
    { rewrite !orb_true_iff, !negb_true_iff, !is_empty_false. split; [intros [[(k & K)|(k & K)]|(k & K)]; exists k; tauto|intros (k & [K|[K|K]]); eauto]. }
    rewrite Q. split; [intros HQ; split; [exact L|exact HQ]|tauto].
Qed.

(** * Answers about a DAO of the old code *)

Lemma old_info_shown e dao d i : od_info d = Ok i ->
  exists f, v1_query e dao d QDaoInfo = Ok (AnInfo f) /\ v1_query e dao d QComponents = Ok (AnComponents (oi_factory i) None dao (oi_funds i) None) /\
    fi_creation f = oi_creation i /\ fi_metadata f = oi_metadata i /\ fi_council f = oi_council i /\ fi_type f = oi_type i /\ fi_membership f = oi_membership i /\
    fi_factory f = oi_factory i /\ fi_funds f = oi_funds i /\ fi_code_version f = oi_code_version i /\ fi_version f = version 0 (oi_code_version i) 0 /\
    fg_quorum (fi_gov f) = og_quorum (oi_gov i) /\ fg_threshold (fi_gov f) = og_threshold (oi_gov i) /\
    fg_veto (fi_gov f) = match og_veto (oi_gov i) with Some v => v | None => og_threshold (oi_gov i) end /\
    fg_vote_duration (fi_gov f) = og_vote_duration (oi_gov i) /\ fg_unlocking (fi_gov f) = og_unlocking (oi_gov i) /\
    fg_minimum_deposit (fi_gov f) = og_minimum_deposit (oi_gov i) /\ fg_allow_early (fi_gov f) = og_allow_early (oi_gov i).
Proof. intros H. cbn [v1_query]. unfold v1_dao_info. rewrite H. cbn [bind]. eexists. repeat (split; [reflexivity|]). reflexivity. Qed.

Lemma old_answers_passed e dao d q : match q with
    | QMemberInfo _ | QMultisigMembers _ _ | QAssetWhitelist _ _ | QNftWhitelist _ _ | QMemberVote _ _ | QProposalVotes _ _ _ | QTotalStaked | QStakedNfts _ _ | QClaims _ | QReleasableClaims _ => True
    | _ => False end -> v1_query e dao d q = od_other d q.
Proof. destruct q; intros H; try destruct H; reflexivity. Qed.
