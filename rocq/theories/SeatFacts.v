(** What votes count for, and how council proposals are decided. *)
From Coq Require Import Permutation.
From Verif Require Import Base OMap OMapLemmas Assets PollModel PollSpec PollProofs PollFacts FundsModel MemberModel MemberSpec Msgs
  ControllerModel ControllerSpec ControllerProofs ControllerFacts TreasuryModel EnterpriseModel OutpostsModel WorldModel WorldSpec WorldProofs WorldRun WorldFacts
  LiveSpec LiveResults EndSpec EndFacts PurseSpec BallotSpec BallotProofs BallotFacts RecountSpec RecountFacts OrderSpec AccessSpec AccessFacts SeatSpec SeatProofs.

Lemma run_seated X (Out : outside X) A w0 ts now :
  new_dao A w0 -> timely 0 ts -> N.of_nat (length (w_log (world_run Out A w0 ts))) < 2 ^ 64 -> unforged A (world_run Out A w0 ts) -> last_time ts <= now ->
  seats A (weight_of (w_member w0)) (weight_of (w_council w0)) (mk_env now 0) (world_run Out A w0 ts).
Proof.
  intros HN HT HS HU HB. eapply (run_seats Out A (weight_of (w_member w0)) (weight_of (w_council w0)) (nd_addrs _ _ HN) ts w0 0 (mk_env 0 0));
    [reflexivity|exact HT|exact (new_wired _ _ HN)| |exact HS|exact HU|exact HB].
  split; [|split].
  - intros u. rewrite (nd_log _ _ HN). split; reflexivity.
  - rewrite (nd_log _ _ HN), (nd_governance _ _ HN). split.
    + intros u i v Hv. discriminate.
    + intros u i _. reflexivity.
    + intros i _ u. split; reflexivity.
  - rewrite (nd_log _ _ HN). intros x u i [].
Qed.

Lemma votes_count X (Out : outside X) A w0 ts w now u id pl ends :
  new_dao A w0 -> w = world_run Out A w0 ts -> timely 0 ts -> N.of_nat (length (w_log w)) < 2 ^ 64 -> unforged A w -> last_time ts <= now ->
  oget (g_polls (w_gov w)) id = Some pl -> p_status pl = InProgress ends -> now < ends ->
  option_map v_amount (get_vote (w_gov w) u id) = counts A (weight_of (w_member w0)) (weight_of (w_council w0)) (w_log w) u id.
Proof.
  intros HN -> HT HS HU HB Hpl Hst HE. destruct (run_seated X Out A w0 ts now HN HT HS HU HB) as (_ & R & _).
  apply (ss_open _ _ _ _ _ _ R). exists pl, ends. auto.
Qed.

Lemma counts_voted A m c l u id n : counts A m c l u id = Some n ->
  exists l1 x l2, voted_at A u id l l1 x l2 /\ n = dflt (brings A m c u l2 x) (last_told A u l1).
Proof.
  revert n. induction l as [|x l IH]; intros n H; [discriminate|]. cbn [counts] in H. destruct (ballot A u id x) as [o|] eqn:B.
  - injection H as <-. exists [], x, l. split; [|reflexivity]. split; [reflexivity|]. split; [congruence|constructor].
  - destruct (told A u x) as [k|] eqn:T.
    + destruct (counts A m c l u id) as [n'|] eqn:C; [|discriminate]. injection H as <-. destruct (IH _ eq_refl) as (l1 & y & l2 & (-> & V2 & V3) & _).
      exists (x :: l1), y, l2. split; [split; [reflexivity|]; split; [exact V2|constructor; assumption]|]. cbn [last_told]. rewrite T. reflexivity.
    + destruct (IH _ H) as (l1 & y & l2 & (-> & V2 & V3) & ->). exists (x :: l1), y, l2. split; [split; [reflexivity|]; split; [exact V2|constructor; assumption]|]. cbn [last_told]. rewrite T. reflexivity.
Qed.

Lemma ballot_council A u id x : ballot A u id x <> None -> kind x = Council ->
  exists o coins, x = (u, WasmExecute (a_controller A) (ToController (CCastCouncilVote id o)) coins).
Proof.
  unfold ballot, kind. destruct x as (s, m). cbn [fst snd]. intros H K. destruct m as [|to wm coins| | | | |]; try discriminate. destruct wm as [cm| | | | | | | | | | | |]; try discriminate.
  destruct cm; try discriminate. destruct (N.eqb_spec s u) as [->|]; [|destruct (H eq_refl)]. destruct (N.eqb_spec to (a_controller A)) as [->|]; [|destruct (H eq_refl)].
  cbn [andb] in H. match type of H with (if ?a =? id then _ else _) <> None => destruct (N.eqb_spec a id) as [->|]; [|destruct (H eq_refl)] end. eauto.
Qed.

Lemma council_vote X (Out : outside X) A w0 ts w now u id v :
  new_dao A w0 -> w = world_run Out A w0 ts -> timely 0 ts -> N.of_nat (length (w_log w)) < 2 ^ 64 -> unforged A w -> last_time ts <= now ->
  open_poll w Council id now -> get_vote (w_gov w) u id = Some v ->
  exists later o coins before,
    w_log w = later ++ (u, WasmExecute (a_controller A) (ToController (CCastCouncilVote id o)) coins) :: before /\
    Forall (fun y => ballot A u id y = None) later /\ v_outcome v = outcome_u8 o /\
    v_amount v = match last_told A u later with Some n => n | None => recount (a_council A) u (weight_of (w_council w0) u) before end.
Proof.
  intros HN E HT HS HU HB (p & pl & ends & Hp & Hty & Hpl & Hst & HE) Hv. subst w.
  pose proof (votes_count X Out A w0 ts _ now u id pl ends HN eq_refl HT HS HU HB Hpl Hst HE) as C. rewrite Hv in C. cbn [option_map] in C. symmetry in C.
  destruct (counts_voted _ _ _ _ _ _ _ C) as (l1 & x & l2 & (E1 & E2 & E3) & Ea).
  destruct (run_seated X Out A w0 ts now HN HT HS HU HB) as (_ & _ & Ty).
  destruct (Ty x u id) as (p' & Hp' & Hk); [rewrite E1; apply in_or_app; right; left; reflexivity|exact E2|]. assert (p' = p) as -> by congruence. rewrite Hty in Hk. symmetry in Hk.
  destruct (ballot_council _ _ _ _ E2 Hk) as (o & coins & ->). exists l1, o, coins, l2. split; [exact E1|]. split; [exact E3|]. split.
  - pose proof (own_ballots X Out A w0 ts _ u id HN eq_refl HS HU) as O. unfold chosen in O. rewrite Hv, E1, last_app in O. cbn [option_map] in O.
    assert (L : last_ballot A l1 u id = None). { clear -E3. induction E3 as [|y l Hy _ IH]; [reflexivity|]. cbn [last_ballot]. rewrite Hy. exact IH. }
    rewrite L in O. cbn [last_ballot] in O. unfold ballot in O. cbn [fst snd] in O. rewrite !N.eqb_refl in O. injection O as O. exact O.
  - rewrite Ea. unfold brings. rewrite Hk. destruct (last_told A u l1); reflexivity.
Qed.

Lemma tally_by X A (w : world X) id o (f : addr -> N) :
  (forall u, chosen w u id = option_map outcome_u8 (last_ballot A (w_log w) u id)) ->
  (forall u v, get_vote (w_gov w) u id = Some v -> v_amount v = f u) ->
  tally (w_gov w) id o = lsum f (supporters A (w_log w) id o).
Proof.
  intros HC HV. rewrite tally_vsum. unfold vsum, osum.
  set (g := w_gov w) in *. set (q := fun u => match get_vote g u id with Some v => v_outcome v =? outcome_u8 o | None => false end).
  transitivity (lsum f (filter q (okeys (g_votes g)))).
  - rewrite lsum_filter. unfold okeys. rewrite lsum_map. apply lsum_ext_in. intros (u, m) Hi. cbn [fst snd]. unfold q, contrib.
    assert (G : get_vote g u id = oget m id). { unfold get_vote, votes_of. apply oget_In in Hi. rewrite Hi. reflexivity. }
    rewrite <- G. destruct (get_vote g u id) as [v|] eqn:E; [|reflexivity]. rewrite (HV _ _ E). reflexivity.
  - apply lsum_perm. apply NoDup_Permutation.
    + apply NoDup_filter, okeys_NoDup.
    + apply NoDup_filter, NoDup_nodup.
    + intros u. unfold supporters. rewrite !filter_In, nodup_In. unfold q. specialize (HC u). unfold chosen in HC. fold g in HC.
      destruct (get_vote g u id) as [v|] eqn:E, (last_ballot A (w_log w) u id) as [b|] eqn:B; cbn [option_map] in HC; try discriminate; cbn [said].
      * injection HC as HC. rewrite HC. split; intros (H1 & H2); (split; [|exact H2]); [eapply last_sender; exact B|].
        unfold get_vote, votes_of in E. destruct (oget (g_votes g) u) as [m|] eqn:Em; [|discriminate].
        apply okeys_In. eauto.
      * split; intros (_ & H); discriminate.
Qed.

Lemma backing_counted X (Out : outside X) A w0 ts w now ty id o :
  new_dao A w0 -> w = world_run Out A w0 ts -> timely 0 ts -> N.of_nat (length (w_log w)) < 2 ^ 64 -> unforged A w -> last_time ts <= now ->
  open_poll w ty id now -> tally (w_gov w) id o = backing A w0 w id o.
Proof.
  intros HN E HT HS HU HB (p & pl & ends & Hp & Hty & Hpl & Hst & HE). unfold backing. apply tally_by.
  - intros u. eapply own_ballots; eassumption.
  - intros u v Hv. rewrite <- (votes_count X Out A w0 ts w now u id pl ends HN E HT HS HU HB Hpl Hst HE), Hv. reflexivity.
Qed.

Lemma four_ways l : Forall (fun v => v_outcome v < 4) l -> forall f, f = (fun o => lsum v_amount (filter (fun v => v_outcome v =? outcome_u8 o) l)) ->
  lsum v_amount l = f Yes + f No + f Abstain + f Veto.
Proof.
  intros H f ->. induction H as [|v l Hv _ IH]; [reflexivity|]. rewrite lsum_cons. cbn [filter].
  assert (Q : v_outcome v = 0 \/ v_outcome v = 1 \/ v_outcome v = 2 \/ v_outcome v = 3) by lia.
  cbn [outcome_u8] in *. rewrite IH. destruct Q as [E|[E|[E|E]]]; rewrite E;
  repeat match goal with |- context [if ?a =? ?b then _ else _] => let r := eval vm_compute in (a =? b) in change (a =? b) with r; cbv iota end; rewrite lsum_cons; lia.
Qed.

Lemma turnout_backing X (Out : outside X) A w0 ts w now ty id :
  new_dao A w0 -> w = world_run Out A w0 ts -> timely 0 ts -> N.of_nat (length (w_log w)) < 2 ^ 64 -> unforged A w -> last_time ts <= now ->
  open_poll w ty id now -> PollProofs.inv (w_gov w) -> turnout (w_gov w) id = all_backing A w0 w id.
Proof.
  intros HN E HT HS HU HB HO HI. unfold turnout, all_backing. rewrite <- !(backing_counted X Out A w0 ts w now ty id) by assumption.
  apply (four_ways (recorded_votes (w_gov w) id)) with (f := fun o => tally (w_gov w) id o); [|reflexivity].
  apply Forall_forall. intros v Hv. apply (recorded_votes_In _ _ _ HI) in Hv.
  subst w. destruct (run_seated X Out A w0 ts now HN HT HS HU HB) as (_ & R & _). eapply (ss_tidy _ _ _ _ _ _ R). exact Hv.
Qed.

Lemma backing_decides X (Out : outside X) A birth w0 before later ty id ends pl pl' :
  new_dao A w0 -> created_by birth (w_member w0) -> created_by birth (w_council w0) -> timely birth (before ++ later) ->
  let w := world_run Out A w0 before in let w' := world_run Out A w0 (before ++ later) in
  lasting w -> lasting w' -> calm A w' ->
  closing w ty id ends -> oget (g_polls (w_gov w)) id = Some pl -> seconds_before ends before -> all_after ends later ->
  oget (g_polls (w_gov w')) id = Some pl' -> p_status pl' <> InProgress ends ->
  share_fits (all_backing A w0 w id) (weight_now w ty) ->
  verdict (p_quorum pl) (p_threshold pl) (match p_veto_threshold pl with Some v => v | None => p_threshold pl end)
    (backing A w0 w id Yes) (backing A w0 w id No) (backing A w0 w id Abstain) (backing A w0 w id Veto) (weight_now w ty) (p_status pl').
Proof.
  intros HN B1 B2 HT w w' HLw HL HC HCl Hpl HB HAf Hpl' HE HF.
  assert (HT0 : timely birth before) by (destruct (timely_app _ _ _ HT) as (T1 & _); exact T1).
  assert (HCw : calm A w).
  { assert (HC1 := HC). assert (HL1 := HL). unfold w' in HC1, HL1. rewrite run_app in HC1, HL1. destruct HL1 as (_ & L2). fold w in HC1, L2.
    pose proof (run_size Out A later w) as S1. assert (SW : size w < M64) by apply HLw.
    destruct (run_ahead Out A (nd_addrs _ _ HN) before w0 (new_wired _ _ HN) SW) as (HW & _). fold w in HW.
    destruct (run_ahead Out A (nd_addrs _ _ HN) later _ HW L2) as (_ & AH & _). exact (calm_back _ _ _ AH HC1). }
  assert (LT : last_time before < ends).
  { change (last_time before) with (last_from 0 before). apply (last_from_all (fun t => t < ends)); [apply seconds_all; exact HB|]. eapply closing_some; eassumption. }
  destruct (whole_weight X Out A birth w0 before ty id ends HN B1 B2 HT0 HLw HCw HCl HB) as (E & _). fold w in E.
  assert (HO : open_poll w ty id (last_time before)).
  { destruct HCl as (p & q & H1 & H2 & H3 & H4). exists p, q, ends. auto. }
  assert (HU : unforged A w) by (apply calm_unforged; [exact HN|exact (timely_0 _ _ HT0)|exact HLw|exact HCw]).
  destruct (run_facts X Out A w0 before HN (timely_0 _ _ HT0) HLw HCw) as (K & _). fold w in K.
  assert (T : forall o, tally (w_gov w) id o = backing A w0 w id o).
  { intros o. apply (backing_counted X Out A w0 before w (last_time before) ty id o HN eq_refl (timely_0 _ _ HT0) (proj2 HLw) HU (N.le_refl _) HO). }
  rewrite <- (turnout_backing X Out A w0 before w (last_time before) ty id HN eq_refl (timely_0 _ _ HT0) (proj2 HLw) HU (N.le_refl _) HO) in HF by apply K.
  rewrite <- E in HF.
  pose proof (ended_ruled X Out A birth w0 before later ty id ends pl pl' HN B1 B2 HT HL HC HCl Hpl (seconds_all _ _ HB) HAf HF Hpl' HE) as R.
  unfold ruled in R. fold w in R. rewrite E in R. rewrite !T in R. exact R.
Qed.

Lemma council_level X (Out : outside X) A w0 ts w u l2 :
  new_dao A w0 -> in_place A w0 -> w = world_run Out A w0 ts -> one_each A w0 w -> (exists l1, w_log w = l1 ++ l2) ->
  recount (a_council A) u (weight_of (w_council w0) u) l2 <= 1.
Proof.
  intros HN HP E ((q & Hq) & H1 & H2). induction l2 as [|x l2 IH]; intros (l1 & L); [apply H1|].
  assert (IH' : recount (a_council A) u (weight_of (w_council w0) u) l2 <= 1). { apply IH. exists (l1 ++ [x]). rewrite <- app_assoc. exact L. }
  unfold recount in *. cbn [fold_right]. set (n := fold_right _ _ l2) in *. clearbody n. unfold reweigh. destruct x as (s, m). cbn [fst snd].
  destruct m as [|to wm coins| | | | |]; try exact IH'. destruct wm as [| |mm| | | | | | | | | |]; try exact IH'. destruct (N.eqb_spec to (a_council A)) as [->|]; [|exact IH'].
  assert (EN : entitled Out A w0 l2 s (WasmExecute (a_council A) (ToMembership mm) coins)).
  { eapply all_entitled; [exact HN|exact HP|exact E|]. exists l1. exact L. }
  destruct EN as (_ & _ & _ & EN & _). destruct (EN eq_refl) as (mm' & Em & M). injection Em as <-. rewrite Hq in M.
  assert (IN : In (s, WasmExecute (a_council A) (ToMembership mm) coins) (w_log w)) by (rewrite L; apply in_or_app; right; left; reflexivity).
  assert (EL : forall l, Forall (fun p => snd p <= 1) l -> forall k, entry u l = Some k -> k <= 1).
  { intros l F k. unfold entry. destruct (find (fun p => fst p =? u) l) as [p|] eqn:Ef; [|discriminate]. cbn [option_map]. intros Ek. injection Ek as <-.
    apply find_some in Ef. destruct Ef as (Ef & _). exact (proj1 (Forall_forall _ _) F _ Ef). }
  destruct mm as [t|t|t|t]; cbn [weighs_after may_tell_members] in *.
  - destruct t as [k h|t]; [destruct M as (st & M & _); discriminate|]. destruct t; try exact IH'. destruct (s =? u); lia.
  - destruct t as [v|t]; [destruct M as (st & d & k & M & _); discriminate|]. destruct t; try exact IH'. destruct (s =? u); lia.
  - destruct t as [k h| | | | |]; try exact IH'; [destruct M as (st & M & _); discriminate|]. destruct (s =? u); lia.
  - destruct t as [l|l| |]; try exact IH'.
    + destruct (entry u l) as [k|] eqn:Ek; [|exact IH']. eapply EL; [eapply H2; right; exact IN|exact Ek].
    + destruct (entry u l) as [k|] eqn:Ek; [|lia]. eapply EL; [eapply H2; left; exact IN|exact Ek].
Qed.

Lemma lsum_ones {T} (f : T -> N) l : (forall x, In x l -> f x = 1) -> lsum f l = N.of_nat (length l).
Proof. intros H. induction l as [|x l IH]; [reflexivity|]. rewrite lsum_cons, IH, (H x (or_introl eq_refl)); [cbn [length]; lia|]. intros y Hy. apply H. right. exact Hy. Qed.

Lemma told_none A u l : (forall y, In y l -> told A u y = None) -> last_told A u l = None.
Proof. intros H. induction l as [|y l IH]; [reflexivity|]. cbn [last_told]. rewrite (H y (or_introl eq_refl)). apply IH. intros z Hz. apply H. right. exact Hz. Qed.

Lemma heads_counted X (Out : outside X) A w0 ts w now id o :
  new_dao A w0 -> in_place A w0 -> w = world_run Out A w0 ts -> timely 0 ts -> N.of_nat (length (w_log w)) < 2 ^ 64 -> unforged A w -> last_time ts <= now ->
  open_poll w Council id now -> one_each A w0 w ->
  (forall u x, In u (supporters A (w_log w) id o) -> In x (w_log w) -> told A u x = None) ->
  tally (w_gov w) id o = N.of_nat (length (supporters A (w_log w) id o)).
Proof.
  intros HN HP E HT HS HU HB HO H1 HQ.
  rewrite (backing_counted X Out A w0 ts w now Council id o HN E HT HS HU HB HO). unfold backing. apply lsum_ones. intros u Hu.
  assert (HO' := HO). destruct HO' as (p & pl & ends & Hp & Hty & Hpl & Hst & HE).
  rewrite <- (votes_count X Out A w0 ts w now u id pl ends HN E HT HS HU HB Hpl Hst HE).
  assert (O := own_ballots X Out A w0 ts w u id HN E HS HU). unfold chosen in O.
  destruct (get_vote (w_gov w) u id) as [v|] eqn:Hv.
  - cbn [option_map dflt]. destruct (council_vote X Out A w0 ts w now u id v HN E HT HS HU HB HO Hv) as (l1 & o' & coins & l2 & L & _ & _ & ->).
    rewrite told_none by (intros y Hy; apply HQ; [exact Hu|rewrite L; apply in_or_app; left; exact Hy]).
    destruct (voters_have_weight X Out A w0 ts w u id o' coins l2 HN HP E) as (_ & VW).
    assert (NZ : recount (a_council A) u (weight_of (w_council w0) u) l2 <> 0) by (apply VW; exists l1; exact L).
    pose proof (council_level X Out A w0 ts w u l2 HN HP E H1) as LE. assert (LE' : recount (a_council A) u (weight_of (w_council w0) u) l2 <= 1); [|lia].
    apply LE. exists (l1 ++ [(u, WasmExecute (a_controller A) (ToController (CCastCouncilVote id o')) coins)]). rewrite <- app_assoc. exact L.
  - unfold supporters in Hu. apply filter_In in Hu. destruct Hu as (_ & Hu). destruct (last_ballot A (w_log w) u id); [discriminate O|discriminate Hu].
Qed.
