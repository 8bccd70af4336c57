(** Whose votes are counted, and what they decide. *)
From Coq Require Import Permutation.
From Verif Require Import Base OMap OMapLemmas Assets PollModel PollSpec PollProofs PollFacts FundsModel MemberModel MemberSpec Msgs
  ControllerModel ControllerSpec ControllerProofs ControllerFacts TreasuryModel EnterpriseModel OutpostsModel WorldModel WorldSpec WorldProofs WorldRun WorldFacts
  LiveSpec LiveResults EndSpec EndFacts PurseSpec BallotSpec BallotProofs.

Lemma own_ballots X (Out : outside X) A w0 ts w u id :
  new_dao A w0 -> w = world_run Out A w0 ts -> N.of_nat (length (w_log w)) < 2 ^ 64 -> unforged A w ->
  chosen w u id = option_map outcome_u8 (last_ballot A (w_log w) u id).
Proof.
  intros HN -> HS HU. apply (run_ballots Out A (nd_addrs _ _ HN) ts w0); [exact (new_wired _ _ HN)| |exact HS|exact HU].
  split.
  - intros v i x Hx. rewrite (nd_governance _ _ HN) in Hx. discriminate.
  - intros v i. rewrite (nd_log _ _ HN). unfold chosen. rewrite (nd_governance _ _ HN). reflexivity.
Qed.

Lemma calm_unforged X (Out : outside X) A w0 ts : new_dao A w0 -> timely 0 ts -> lasting (world_run Out A w0 ts) -> calm A (world_run Out A w0 ts) ->
  unforged A (world_run Out A w0 ts).
Proof.
  intros HN HT HL HC id p m Hr Hp Hm. destruct (run_facts X Out A w0 ts HN HT HL HC) as (K & _).
  unfold runs in Hr. apply in_flat_map in Hr. destruct Hr as ((s, x) & Hi & Hx). cbn [snd] in Hx.
  destruct x as [|to wm coins| | | | |]; try destruct Hx. destruct wm as [cm| | | | | | | | | | | |]; try destruct Hx. destruct cm; try destruct Hx.
  destruct (N.eqb_spec to (a_controller A)) as [->|]; [|destruct Hx]. destruct Hx as [<-|[]].
  destruct (c_order _ _ _ K _ _ _ Hi) as (-> & ->). apply safe_honest. apply harmless_safe. eapply HC; eassumption.
Qed.

Lemma last_sender A l u id o : last_ballot A l u id = Some o -> In u (map fst l).
Proof.
  induction l as [|x l IH]; [discriminate|]. cbn [last_ballot map]. destruct (ballot A u id x) eqn:E; [|intros H; right; apply IH; exact H].
  intros _. left. unfold ballot in E. destruct x as (s, m). cbn [fst snd] in *. destruct m as [|to wm coins| | | | |]; try discriminate.
  destruct wm as [cm| | | | | | | | | | | |]; try discriminate.
  destruct cm; try discriminate; destruct (N.eqb_spec s u) as [->|]; try discriminate; reflexivity.
Qed.

Lemma tally_support X A (w : world X) id o : PollProofs.inv (w_gov w) ->
  (forall u, chosen w u id = option_map outcome_u8 (last_ballot A (w_log w) u id)) ->
  (forall u v, get_vote (w_gov w) u id = Some v -> v_amount v = weight_of (w_member w) u) ->
  tally (w_gov w) id o = support A w id o.
Proof.
  intros HI HC HV. rewrite tally_vsum. unfold vsum, osum, support.
  set (g := w_gov w) in *. set (f := fun u => match get_vote g u id with Some v => v_outcome v =? outcome_u8 o | None => false end).
  transitivity (lsum (weight_of (w_member w)) (filter f (okeys (g_votes g)))).
  - rewrite lsum_filter. unfold okeys. rewrite lsum_map. apply lsum_ext_in. intros (u, m) Hi. cbn [fst snd]. unfold f, contrib.
    assert (G : get_vote g u id = oget m id). { unfold get_vote, votes_of. apply oget_In in Hi. rewrite Hi. reflexivity. }
    rewrite <- G. destruct (get_vote g u id) as [v|] eqn:E; [|reflexivity]. rewrite (HV _ _ E). reflexivity.
  - apply lsum_perm. apply NoDup_Permutation.
    + apply NoDup_filter, okeys_NoDup.
    + apply NoDup_filter, NoDup_nodup.
    + intros u. unfold supporters. rewrite !filter_In, nodup_In. unfold f. specialize (HC u). unfold chosen in HC. fold g in HC.
      destruct (get_vote g u id) as [v|] eqn:E, (last_ballot A (w_log w) u id) as [b|] eqn:B; cbn [option_map] in HC; try discriminate; cbn [said].
      * injection HC as HC. rewrite HC. split; intros (H1 & H2); (split; [|exact H2]); [eapply last_sender; exact B|].
        unfold get_vote, votes_of in E. destruct (oget (g_votes g) u) as [m|] eqn:Em; [|discriminate].
        apply okeys_In. eauto.
      * split; intros (_ & H); discriminate.
Qed.

Lemma support_counted X (Out : outside X) A w0 ts w now id pl o :
  new_dao A w0 -> w = world_run Out A w0 ts -> timely 0 ts -> lasting w -> calm A w -> last_time ts <= now ->
  open_poll w General id now -> oget (g_polls (w_gov w)) id = Some pl ->
  tally (w_gov w) id o = support A w id o /\ ogetN (p_results pl) (outcome_u8 o) = support A w id o.
Proof.
  intros HN E HT HL HC HB HO Hpl. subst w. set (w := world_run Out A w0 ts) in *.
  destruct (run_facts X Out A w0 ts HN HT HL HC) as (K & V & _). fold w in K, V.
  assert (S : tally (w_gov w) id o = support A w id o).
  { apply tally_support; [apply K| |].
    - intros u. eapply own_ballots; [exact HN|reflexivity|apply HL|]. apply calm_unforged; assumption.
    - intros u v Hv. eapply (later_votes _ _ _ HB V); eassumption. }
  split; [exact S|]. destruct (votes_below_total X Out A w0 ts now id pl HN HT HL HC HB HO Hpl) as (_ & Q & _). specialize (Q o). fold w in Q. rewrite <- S. exact Q.
Qed.

Lemma seconds_all t ts : seconds_before t ts -> all_before t ts.
Proof. apply Forall_impl. intros x H. destruct (N.lt_ge_cases (e_time (tx_env x)) t) as [Q|Q]; [exact Q|]. apply (N.div_le_mono _ _ (10 ^ 9)) in Q; [|discriminate]. lia. Qed.

Lemma ballots_decide X (Out : outside X) A birth w0 before later id ends pl pl' :
  new_dao A w0 -> created_by birth (w_member w0) -> created_by birth (w_council w0) -> timely birth (before ++ later) ->
  let w := world_run Out A w0 before in let w' := world_run Out A w0 (before ++ later) in
  lasting w -> lasting w' -> calm A w' ->
  closing w General id ends -> oget (g_polls (w_gov w)) id = Some pl -> seconds_before ends before -> all_after ends later ->
  oget (g_polls (w_gov w')) id = Some pl' -> p_status pl' <> InProgress ends ->
  verdict (p_quorum pl) (p_threshold pl) (match p_veto_threshold pl with Some v => v | None => p_threshold pl end)
    (support A w id Yes) (support A w id No) (support A w id Abstain) (support A w id Veto) (weight_now w General) (p_status pl').
Proof.
  intros HN B1 B2 HT w w' HLw HL HC HCl Hpl HB HAf Hpl' HE.
  assert (HT0 : timely birth before) by (destruct (timely_app _ _ _ HT) as (T1 & _); exact T1).
  assert (HCw : calm A w).
  { assert (HC1 := HC). assert (HL1 := HL). unfold w' in HC1, HL1. rewrite run_app in HC1, HL1. destruct HL1 as (_ & L2). fold w in HC1, L2.
    pose proof (run_size Out A later w) as S1. assert (SW : size w < M64) by apply HLw.
    destruct (run_ahead Out A (nd_addrs _ _ HN) before w0 (new_wired _ _ HN) SW) as (HW & _). fold w in HW.
    destruct (run_ahead Out A (nd_addrs _ _ HN) later _ HW L2) as (_ & AH & _). exact (calm_back _ _ _ AH HC1). }
  assert (LT : last_time before < ends).
  { change (last_time before) with (last_from 0 before). apply (last_from_all (fun t => t < ends)); [apply seconds_all; exact HB|]. eapply closing_some; eassumption. }
  destruct (whole_weight X Out A birth w0 before General id ends HN B1 B2 HT0 HLw HCw HCl HB) as (E & Q). destruct (Q eq_refl) as (_ & HF).
  pose proof (ended_ruled X Out A birth w0 before later General id ends pl pl' HN B1 B2 HT HL HC HCl Hpl (seconds_all _ _ HB) HAf HF Hpl' HE) as R.
  unfold ruled in R. fold w in E, R. rewrite E in R.
  assert (HO : open_poll w General id (last_time before)).
  { destruct HCl as (p & q & H1 & H2 & H3 & H4). exists p, q, ends. auto. }
  assert (T : forall o, tally (w_gov w) id o = support A w id o).
  { intros o. apply (support_counted X Out A w0 before w (last_time before) id pl o HN eq_refl (timely_0 _ _ HT0) HLw HCw (N.le_refl _) HO Hpl). }
  rewrite !T in R. exact R.
Qed.
