(** Proofs about the governance model. *)
From Verif Require Import Base OMap OMapLemmas PollModel PollSpec.

(** * Small facts *)
Lemma outcome_of_u8_spec v o : outcome_of_u8 v = Ok o <-> v = outcome_u8 o.
Proof.
  split; intros H.
  - destruct v as [|[[p|p|]|[p|p|]|]]; cbn in H; inversion H; reflexivity.
  - subst. destruct o; reflexivity.
Qed.

Lemma outcome_of_u8_ok v : v < 4 -> exists o, outcome_of_u8 v = Ok o /\ v = outcome_u8 o.
Proof.
  intros H. assert (E : v = 0 \/ v = 1 \/ v = 2 \/ v = 3) by lia.
  destruct E as [->|[->|[->| ->]]]; [exists Yes|exists No|exists Abstain|exists Veto]; split; reflexivity.
Qed.

Lemma outcome_u8_lt o : outcome_u8 o < 4.
Proof. destruct o; cbn; lia. Qed.
Lemma outcome_u8_inj o o' : outcome_u8 o = outcome_u8 o' -> o = o'.
Proof. destruct o, o'; cbn; intros H; congruence || lia. Qed.


Lemma get_set_vote g voter id v voter' id' :
  get_vote (set_vote g voter id v) voter' id' =
  if (voter =? voter') && (id =? id') then Some v else get_vote g voter' id'.
Proof.
  unfold get_vote, set_vote, votes_of; cbn [g_votes]. rewrite oget_oset.
  destruct (voter =? voter') eqn:E; cbn [andb dflt]; [|reflexivity].
  apply N.eqb_eq in E; subst. rewrite oget_oset. destruct (id =? id'); reflexivity.
Qed.

Lemma get_vote_set_poll g id p voter id' : get_vote (set_poll g id p) voter id' = get_vote g voter id'.
Proof. reflexivity. Qed.

(** the contribution of one voter to a tally *)
Definition contrib (id k : N) (m : omap vote) : N :=
  match oget m id with Some v => if v_outcome v =? k then v_amount v else 0 | None => 0 end.
Definition vsum (g : gov) (id k : N) : N := osum (fun _ => contrib id k) (g_votes g).
Definition vcontrib (ov : option vote) (k : N) : N :=
  match ov with Some v => if v_outcome v =? k then v_amount v else 0 | None => 0 end.

Lemma tally_vsum g id o : tally g id o = vsum g id (outcome_u8 o).
Proof.
  unfold tally, recorded_votes, query_poll_voters, vsum, osum.
  rewrite lsum_filter, lsum_map, lsum_filter. cbn [andb].
  induction (elems (g_votes g)) as [|[k m] t IH]; [reflexivity|].
  cbn [flat_map]. rewrite lsum_app, lsum_cons, <- IH. f_equal.
  cbn [fst snd]. unfold contrib. destruct (oget m id); [|reflexivity].
  rewrite lsum_cons. cbn. destruct (v_outcome v =? outcome_u8 o); cbn; lia.
Qed.

Lemma vsum_set_vote g voter id v id' k :
  vsum (set_vote g voter id v) id' k + (if id =? id' then vcontrib (get_vote g voter id) k else 0) =
  vsum g id' k + (if id =? id' then vcontrib (Some v) k else 0).
Proof.
  unfold vsum, set_vote; cbn [g_votes].
  pose proof (osum_oset (fun _ => contrib id' k) (g_votes g) voter (oset (votes_of g voter) id v)) as H.
  assert (E : oval (fun _ => contrib id' k) (g_votes g) voter = vcontrib (get_vote g voter id') k).
  { unfold oval, get_vote, votes_of, vcontrib, contrib. destruct (oget (g_votes g) voter); reflexivity. }
  rewrite E in H. clear E. unfold contrib in H at 3. rewrite oget_oset in H.
  destruct (id =? id') eqn:Ei.
  - apply N.eqb_eq in Ei; subst. exact H.
  - unfold get_vote in H. unfold vcontrib in H. lia.
Qed.

Lemma vcontrib_le g voter id k : vcontrib (get_vote g voter id) k <= vsum g id k.
Proof.
  pose proof (oval_le (fun _ => contrib id k) (g_votes g) voter) as Hle.
  unfold oval, contrib in Hle. unfold get_vote, votes_of, vcontrib.
  destruct (oget (g_votes g) voter) as [m|] eqn:Em; [|cbn [dflt]; rewrite oget_empty; lia]. exact Hle.
Qed.

(** * Shape of successful calls *)
Definition new_results (p : poll) (old : option vote) (o : outcome) (amount : N) : omap N :=
  let r := match old with
           | Some v => match oget (p_results p) (v_outcome v) with
                       | Some t => oset (p_results p) (v_outcome v) (u128_sub t (v_amount v))
                       | None => p_results p
                       end
           | None => p_results p
           end in
  oset r (outcome_u8 o) (match oget r (outcome_u8 o) with Some t => u128_add t amount | None => amount end).

Definition cast_result (g : gov) (id : N) (p : poll) (o : outcome) (voter amount : N) : gov :=
  set_poll (set_vote g voter id (mk_vote id voter (outcome_u8 o) amount)) id
    (with_results p (new_results p (get_vote g voter id) o amount)).

Lemma increase_results_eq p o a :
  increase_results p o a =
  with_results p (oset (p_results p) (outcome_u8 o)
    (match oget (p_results p) (outcome_u8 o) with Some t => u128_add t a | None => a end)).
Proof. unfold increase_results. destruct (oget _ _); reflexivity. Qed.

Lemma cast_vote_ok g e id o voter amount g' :
  cast_vote g e id o voter amount = Ok g' ->
  exists p, voter <> 0 /\ id <> 0 /\ id <= g_count g /\ oget (g_polls g) id = Some p /\
            open_at p (e_time e) /\
            (forall v, get_vote g voter id = Some v -> v_outcome v < 4) /\
            g' = cast_result g id p o voter amount.
Proof.
  unfold cast_vote. intros H. bind_inv H.
  apply guard_ok in Hb. apply addr_validate_ok in Hb0 as [<- Hv0]. apply ok_or_ok in Hb1.
  apply guard_ok in Hb3. exists x1.
  split; [exact Hv0|].
  assert (Hid : id <> 0 /\ id <= g_count g) by lia. destruct Hid.
  split; [assumption|]. split; [assumption|]. split; [assumption|].
  split.
  { split; [|lia]. unfold validate_not_already_ended in Hb2. destruct (p_status x1); eauto; discriminate. }
  destruct (get_vote g voter id) as [old|] eqn:Eg.
  - bind_inv Hb4. inversion Hb4; subst; clear Hb4. apply outcome_of_u8_spec in Hb0.
    split. { intros v Hv; inversion Hv; subst. rewrite Hb0. apply outcome_u8_lt. }
    unfold cast_result. rewrite Eg. inversion H; subst; clear H.
    f_equal. rewrite increase_results_eq. unfold decrease_results, new_results. rewrite <- Hb0.
    destruct (oget (p_results x1) (v_outcome old)); reflexivity.
  - split. { intros v Hv; discriminate. }
    unfold cast_result. rewrite Eg. inversion Hb4; subst; clear Hb4. inversion H; subst; clear H.
    f_equal. rewrite increase_results_eq. reflexivity.
Qed.

Lemma cast_vote_succeeds g e id o voter amount p :
  voter <> 0 -> id <> 0 -> id <= g_count g -> oget (g_polls g) id = Some p -> open_at p (e_time e) ->
  (forall v, get_vote g voter id = Some v -> v_outcome v < 4) ->
  cast_vote g e id o voter amount = Ok (cast_result g id p o voter amount).
Proof.
  intros Hv Hi Hc Hp [[t Ht] Htime] Hold. unfold cast_vote.
  replace (negb ((id =? 0) || (g_count g <? id))) with true by lia. cbn [guard bind].
  unfold addr_validate. replace (voter =? 0) with false by lia. cbn [bind]. rewrite Hp. cbn [ok_or bind].
  unfold validate_not_already_ended. rewrite Ht. cbn [bind].
  unfold validate_within_voting_period.
  replace ((p_started_at p <=? e_time e) && (e_time e <? p_ends_at p)) with true by lia. cbn [guard bind].
  unfold cast_result. destruct (get_vote g voter id) as [old|] eqn:Eg.
  - destruct (outcome_of_u8_ok (v_outcome old) (Hold old eq_refl)) as [oo [E1 E2]]. rewrite E1. cbn [bind].
    f_equal. f_equal. rewrite increase_results_eq. unfold decrease_results, new_results. rewrite E2.
    destruct (oget (p_results p) (outcome_u8 oo)); reflexivity.
  - cbn [bind]. f_equal. f_equal. rewrite increase_results_eq. reflexivity.
Qed.

(** * Reachable states *)
Definition poll_inv (g : gov) (id : N) (p : poll) : Prop :=
  p_id p = id /\ 1 <= id <= g_count g /\
  (forall t, p_status p = InProgress t -> t = p_ends_at p) /\
  p_started_at p < p_ends_at p /\
  (forall k r, oget (p_results p) k = Some r -> k < 4 /\ r < M128) /\
  (forall k, ogetN (p_results p) k = vsum g id k mod M128).

Definition vote_inv (g : gov) (voter id : N) (v : vote) : Prop :=
  v_poll v = id /\ v_voter v = voter /\ voter <> 0 /\ v_outcome v < 4 /\ v_amount v < M128 /\
  exists p, oget (g_polls g) id = Some p /\ ohas (p_results p) (v_outcome v) = true.

Definition inv (g : gov) : Prop :=
  (forall id p, oget (g_polls g) id = Some p -> poll_inv g id p) /\
  (forall voter id v, get_vote g voter id = Some v -> vote_inv g voter id v) /\
  (forall id, 1 <= id <= g_count g -> exists p, oget (g_polls g) id = Some p) /\
  g_count g < M64.

Lemma inv_init a : inv (gov_init a).
Proof.
  repeat split; cbn in *; try discriminate; intros; try lia.
  all: try (unfold get_vote, votes_of in *; cbn in *; discriminate).
Qed.

Lemma vsum_no_votes g id k : (forall voter v, get_vote g voter id <> Some v) -> vsum g id k = 0.
Proof.
  intros H. unfold vsum, osum. apply lsum_zero. intros [voter m] Hin. cbn.
  unfold contrib. destruct (oget m id) eqn:E; [|reflexivity].
  exfalso. apply (H voter v). unfold get_vote, votes_of. apply oget_In in Hin. rewrite Hin. exact E.
Qed.

Lemma inv_create g e c g' id :
  inv g -> g_count g + 1 < M64 -> create_poll g e c = Ok (g', id) -> inv g' /\ id = g_count g + 1 /\ g_count g' = id.
Proof.
  intros (Hp & Hv & Hall & Hc) Hlt H. unfold create_poll in H. bind_inv H.
  unfold validate_create_poll in Hb. bind_inv Hb. apply guard_ok in Hb1.
  apply addr_validate_ok in Hb0 as [<- Hz].
  inversion H; subst; clear H.
  assert (Eid : u64_add (g_count g) 1 = g_count g + 1) by (unfold u64_add; apply N.mod_small; lia).
  rewrite Eid in *.
  split; [|split; reflexivity].
  assert (Hfresh : forall voter v, get_vote g voter (g_count g + 1) <> Some v).
  { intros voter v E. destruct (Hv _ _ _ E) as (_ & _ & _ & _ & _ & p & Ep & _).
    apply Hp in Ep. destruct Ep as (_ & Ep & _). lia. }
  split; [|split; [|split]]; cbn [g_polls g_count].
  - intros id p Ep. rewrite oget_oset in Ep. destruct (g_count g + 1 =? id) eqn:E.
    + apply N.eqb_eq in E. subst id. inversion Ep; subst; clear Ep.
      unfold poll_inv; cbn [p_id p_status p_started_at p_ends_at p_results g_count].
      repeat split; try lia.
      * intros t Ht. congruence.
      * rewrite oget_empty in H; discriminate.
      * rewrite oget_empty in H; discriminate.
      * intros k. unfold vsum. cbn [g_votes]. fold (vsum g (g_count g + 1) k).
        rewrite (vsum_no_votes g _ k Hfresh). rewrite N.mod_0_l by (pose proof M128_pos; lia). reflexivity.
    + apply Hp in Ep. destruct Ep as (E1 & E2 & E3 & E4 & E5 & E6).
      repeat split; try assumption; cbn [g_count]; try lia. all: apply E5 in H; tauto.
  - intros voter id v Ev. change (get_vote g voter id = Some v) in Ev.
    destruct (Hv _ _ _ Ev) as (E1 & E2 & E3 & E4 & E5 & p & E6 & E7).
    repeat split; try assumption. cbn [g_polls]. exists p. split; [|assumption].
    rewrite oget_oset_ne; [assumption|]. intros Heq. apply Hp in E6. destruct E6 as (_ & E6 & _). lia.
  - intros id Hid. destruct (N.eq_dec id (g_count g + 1)) as [->|Hne].
    + rewrite oget_oset_eq. eauto.
    + rewrite oget_oset_ne by congruence. apply Hall. lia.
  - lia.
Qed.

Lemma mod_replace_old_new A B a b c :
  B < M128 -> a < M128 -> B = A mod M128 -> a <= A -> c < M128 ->
  b = u128_add (u128_sub B a) c -> b = (A - a + c) mod M128.
Proof.
  intros HB Ha -> Hle Hc ->. unfold u128_add, u128_sub. pose proof M128_pos as HM.
  rewrite N.add_mod_idemp_l by lia.
  pose proof (N.div_mod A M128 ltac:(lia)) as Hd.
  set (q := A / M128) in *. set (r := A mod M128) in *.
  replace (A - a + c) with (M128 * q + r - a + c) by lia.
  destruct (N.le_gt_cases a r).
  - replace (r + M128 - a + c) with (r - a + c + 1 * M128) by lia.
    replace (M128 * q + r - a + c) with (r - a + c + q * M128) by lia.
    rewrite !N.mod_add by lia. reflexivity.
  - assert (q <> 0) by (intros E; rewrite E in *; lia).
    replace (M128 * q + r - a + c) with (r + M128 - a + c + (q - 1) * M128).
    + rewrite N.mod_add by lia. reflexivity.
    + replace q with (q - 1 + 1) at 2 by lia. rewrite N.mul_add_distr_l. lia.
Qed.

Lemma new_results_spec g id p voter o amount k :
  poll_inv g id p -> (forall v, get_vote g voter id = Some v -> vote_inv g voter id v) ->
  oget (g_polls g) id = Some p -> amount < M128 ->
  ogetN (new_results p (get_vote g voter id) o amount) k =
  (vsum g id k - vcontrib (get_vote g voter id) k + (if outcome_u8 o =? k then amount else 0)) mod M128.
Proof.
  intros (Hid & Hr & Hst & Hse & Hres & Hsum) Hv Hg Ha. pose proof M128_pos as HM.
  assert (Hcur : forall k, ogetN (p_results p) k < M128).
  { intros k'. unfold ogetN. destruct (oget (p_results p) k') eqn:E; cbn; [apply Hres in E; tauto|lia]. }
  assert (HgetN : forall (m : omap N) k v, oget m k = Some v -> ogetN m k = v).
  { intros m k' v E. unfold ogetN. rewrite E. reflexivity. }
  assert (Hadd : forall (m : omap N) k c, (forall k, ogetN m k < M128) -> c < M128 ->
     match oget m k with Some t => u128_add t c | None => c end = u128_add (ogetN m k) c).
  { intros m k' c Hm Hc. unfold ogetN. destruct (oget m k'); cbn; [reflexivity|].
    unfold u128_add. rewrite N.add_0_l, N.mod_small by assumption. reflexivity. }
  unfold new_results. destruct (get_vote g voter id) as [old|] eqn:Eg.
  - destruct (Hv old eq_refl) as (_ & _ & _ & H4 & H5 & p' & H6 & H7). rewrite Hg in H6. inversion H6; subst p'; clear H6.
    apply ohas_true in H7. destruct H7 as [t Ht]. rewrite Ht.
    set (r := oset (p_results p) (v_outcome old) (u128_sub t (v_amount old))).
    assert (Hr' : forall k, ogetN r k < M128).
    { intros k'. unfold r. rewrite ogetN_oset. destruct (v_outcome old =? k'); [|apply Hcur].
      unfold u128_sub. apply N.mod_lt. lia. }
    rewrite (Hadd r _ amount Hr' Ha). rewrite ogetN_oset.
    assert (Hc_le : v_amount old <= vsum g id (v_outcome old)).
    { pose proof (oval_le (fun _ => contrib id (v_outcome old)) (g_votes g) voter) as Hle.
      unfold oval, contrib in Hle. unfold get_vote, votes_of in Eg.
      destruct (oget (g_votes g) voter) as [m|] eqn:Em; [|cbn in Eg; discriminate]. cbn [dflt] in Eg.
      rewrite Eg in Hle. rewrite N.eqb_refl in Hle. exact Hle. }
    cbn [vcontrib].
    destruct (outcome_u8 o =? k) eqn:Eo.
    + apply N.eqb_eq in Eo. subst k. unfold r at 1. rewrite ogetN_oset.
      destruct (v_outcome old =? outcome_u8 o) eqn:E.
      * apply N.eqb_eq in E. rewrite E in *.
        apply (mod_replace_old_new _ (ogetN (p_results p) (outcome_u8 o)) _ _ _ (Hcur _) H5 (Hsum _) Hc_le Ha).
        rewrite (HgetN _ _ _ Ht). reflexivity.
      * rewrite N.sub_0_r. rewrite Hsum. unfold u128_add. rewrite N.add_mod_idemp_l by lia. reflexivity.
    + unfold r. rewrite ogetN_oset. destruct (v_outcome old =? k) eqn:E.
      * apply N.eqb_eq in E. subst k.
        apply (mod_replace_old_new _ (ogetN (p_results p) (v_outcome old)) _ _ _ (Hcur _) H5 (Hsum _) Hc_le); [lia|].
        rewrite (HgetN _ _ _ Ht). unfold u128_add. rewrite N.add_0_r.
        symmetry. apply N.mod_small. unfold u128_sub. apply N.mod_lt. lia.
      * rewrite N.sub_0_r, N.add_0_r. apply Hsum.
  - cbn [vcontrib]. rewrite N.sub_0_r. rewrite (Hadd _ _ _ Hcur Ha), ogetN_oset.
    destruct (outcome_u8 o =? k) eqn:Eo.
    + apply N.eqb_eq in Eo. subst k. rewrite Hsum. unfold u128_add. rewrite N.add_mod_idemp_l by lia. reflexivity.
    + rewrite N.add_0_r. apply Hsum.
Qed.

Lemma new_results_keys p old o amount k r :
  (forall k r, oget (p_results p) k = Some r -> k < 4 /\ r < M128) ->
  (forall v, old = Some v -> v_outcome v < 4) -> amount < M128 ->
  oget (new_results p old o amount) k = Some r -> k < 4 /\ r < M128.
Proof.
  intros Hres Hold Ha. pose proof M128_pos as HM. unfold new_results.
  set (r0 := match old with Some _ => _ | None => _ end).
  assert (Hr0 : forall k r, oget r0 k = Some r -> k < 4 /\ r < M128).
  { intros k' r' E. unfold r0 in E. destruct old as [v|]; [|apply Hres; assumption].
    destruct (oget (p_results p) (v_outcome v)) eqn:Eo; [|apply Hres; assumption].
    rewrite oget_oset in E. destruct (v_outcome v =? k') eqn:Ek; [|apply Hres; assumption].
    apply N.eqb_eq in Ek. subst k'. inversion E. split; [apply Hold; reflexivity|].
    unfold u128_sub. apply N.mod_lt. lia. }
  rewrite oget_oset. destruct (outcome_u8 o =? k) eqn:Ek; [|apply Hr0].
  apply N.eqb_eq in Ek. subst k. intros E. inversion E. split; [apply outcome_u8_lt|].
  destruct (oget r0 (outcome_u8 o)); [|assumption]. unfold u128_add. apply N.mod_lt. lia.
Qed.

Lemma new_results_has p old o amount k :
  ohas (p_results p) k = true \/ k = outcome_u8 o -> ohas (new_results p old o amount) k = true.
Proof.
  unfold new_results. intros H. unfold ohas. rewrite oget_oset.
  destruct (outcome_u8 o =? k) eqn:E; [reflexivity|].
  destruct H as [H|H]; [|subst; rewrite N.eqb_refl in E; discriminate].
  destruct old as [v|]; [|exact H]. destruct (oget (p_results p) (v_outcome v)); [|exact H].
  rewrite oget_oset. destruct (v_outcome v =? k); [reflexivity|exact H].
Qed.

Lemma vsum_set_poll g id p id' k : vsum (set_poll g id p) id' k = vsum g id' k.
Proof. reflexivity. Qed.

Lemma inv_cast g e id o voter amount g' :
  inv g -> amount < M128 -> cast_vote g e id o voter amount = Ok g' -> inv g'.
Proof.
  intros (Hp & Hv & Hall & Hc) Ha H.
  apply cast_vote_ok in H. destruct H as (p & Hv0 & Hid & Hle & Hg & Hopen & Hold & ->).
  pose proof (Hp _ _ Hg) as Hpi. pose proof Hpi as Hpi'.
  destruct Hpi as (E1 & E2 & E3 & E4 & E5 & E6).
  unfold cast_result. split; [|split; [|split]].
  - intros id' p' Ep. cbn [set_poll g_polls set_vote] in Ep. rewrite oget_oset in Ep.
    destruct (id =? id') eqn:Ei.
    + apply N.eqb_eq in Ei. subst id'. inversion Ep; subst p'; clear Ep.
      unfold poll_inv. cbn [with_results p_id p_status p_started_at p_ends_at p_results set_poll set_vote g_count].
      split; [assumption|]. split; [lia|]. split; [assumption|]. split; [assumption|]. split.
      * intros k r. apply new_results_keys; try assumption. 
      * intros k. rewrite (new_results_spec g id p voter o amount k Hpi'); try assumption.
        2:{ intros v Ev. apply Hv. exact Ev. }
        rewrite vsum_set_poll.
        pose proof (vsum_set_vote g voter id (mk_vote id voter (outcome_u8 o) amount) id k) as Hs.
        rewrite N.eqb_refl in Hs. cbn [vcontrib v_outcome v_amount] in Hs.
        pose proof (vcontrib_le g voter id k). f_equal. lia.
    + pose proof (Hp _ _ Ep) as (F1 & F2 & F3 & F4 & F5 & F6).
      unfold poll_inv. cbn [set_poll set_vote g_count]. repeat split; try assumption; try lia.
      1,2: apply F5 in H; tauto.
      intros k. rewrite vsum_set_poll.
      pose proof (vsum_set_vote g voter id (mk_vote id voter (outcome_u8 o) amount) id' k) as Hs.
      rewrite Ei in Hs. rewrite F6. f_equal. lia.
  - intros voter' id' v Ev. rewrite get_vote_set_poll, get_set_vote in Ev.
    unfold vote_inv. cbn [set_poll set_vote g_polls].
    destruct ((voter =? voter') && (id =? id')) eqn:E.
    + inversion Ev; subst v; clear Ev. apply andb_prop in E. destruct E as [Ea Eb].
      apply N.eqb_eq in Ea, Eb. subst voter' id'. cbn [v_poll v_voter v_outcome v_amount].
      repeat split; try assumption; try apply outcome_u8_lt.
      exists (with_results p (new_results p (get_vote g voter id) o amount)).
      rewrite oget_oset_eq. split; [reflexivity|]. cbn [with_results p_results]. apply new_results_has. right; reflexivity.
    + destruct (Hv _ _ _ Ev) as (F1 & F2 & F3 & F4 & F5 & p' & F6 & F7).
      repeat split; try assumption. rewrite oget_oset. destruct (id =? id') eqn:Ei.
      * apply N.eqb_eq in Ei. subst id'. rewrite Hg in F6. inversion F6; subst p'; clear F6.
        eexists. split; [reflexivity|]. cbn [with_results p_results]. apply new_results_has. left; assumption.
      * eauto.
  - intros id' Hid'. cbn [set_poll set_vote g_polls g_count] in *. rewrite oget_oset.
    destruct (id =? id'); eauto.
  - exact Hc.
Qed.

Lemma final_status_not_in_progress p mx t : final_status p mx <> InProgress t.
Proof.
  unfold final_status. destruct (negb _); [discriminate|].
  destruct (most_voted_over_threshold p); try discriminate.
  destruct (_ =? _); [discriminate|]. destruct (_ =? _); discriminate.
Qed.

Lemma end_poll_ok g e id mx ie ae g' :
  end_poll g e id mx ie ae = Ok g' ->
  exists p, oget (g_polls g) id = Some p /\ g' = set_poll g id (with_status p (final_status p mx)) /\
            (if ae then validate_can_end_early (e_time e) mx p = Ok tt else p_ends_at p <= e_time e) /\
            (ie = true -> exists t, p_status p = InProgress t).
Proof.
  unfold end_poll. intros H. bind_inv H. apply ok_or_ok in Hb. inversion H; subst; clear H.
  exists x. split; [assumption|]. split; [reflexivity|]. split.
  - destruct ae; [destruct x0; assumption|]. apply guard_ok in Hb0. lia.
  - intros ->. unfold validate_not_already_ended in Hb1. destruct (p_status x); eauto; discriminate.
Qed.

Lemma inv_end g e id mx ie ae g' : inv g -> end_poll g e id mx ie ae = Ok g' -> inv g'.
Proof.
  intros (Hp & Hv & Hall & Hc) H. apply end_poll_ok in H. destruct H as (p & Hg & -> & _ & _).
  split; [|split; [|split]].
  - intros id' p' Ep. cbn [set_poll g_polls] in Ep. rewrite oget_oset in Ep.
    destruct (id =? id') eqn:Ei.
    + apply N.eqb_eq in Ei. subst id'. inversion Ep; subst p'; clear Ep.
      destruct (Hp _ _ Hg) as (F1 & F2 & F3 & F4 & F5 & F6).
      unfold poll_inv. cbn [with_status p_id p_status p_started_at p_ends_at p_results set_poll g_count].
      split; [assumption|]. split; [assumption|]. split; [|repeat split; try assumption; apply F5 in H; tauto].
      intros t Ht. exfalso. eapply final_status_not_in_progress; eassumption.
    + apply Hp in Ep. exact Ep.
  - intros voter id' v Ev. apply Hv in Ev. destruct Ev as (F1 & F2 & F3 & F4 & F5 & p' & F6 & F7).
    unfold vote_inv. repeat split; try assumption. cbn [set_poll g_polls]. rewrite oget_oset.
    destruct (id =? id') eqn:Ei; [|eauto].
    apply N.eqb_eq in Ei. rewrite <- Ei in F6. rewrite Hg in F6. inversion F6; subst p'. eauto.
  - intros id' Hid'. cbn [set_poll g_polls g_count] in *. rewrite oget_oset. destruct (id =? id'); eauto.
  - exact Hc.
Qed.

Lemma update_vote_ok g e voter amount v g' :
  update_vote e voter amount g v = Ok g' ->
  g' = g \/ exists o, v_outcome v = outcome_u8 o /\ cast_vote g e (v_poll v) o voter amount = Ok g'.
Proof.
  unfold update_vote. intros H. bind_inv H. apply ok_or_ok in Hb.
  destruct (p_status x); [|left; congruence..].
  destruct (e_time e <? ends_at); [|left; congruence].
  bind_inv H. apply outcome_of_u8_spec in Hb0. right. eauto.
Qed.

Lemma inv_update g e voter amount g' :
  inv g -> amount < M128 -> update_votes g e voter amount = Ok g' -> inv g'.
Proof.
  intros Hi Ha H. unfold update_votes in H. bind_inv H.
  refine (fold_res_inv inv _ _ _ _ _ Hi H).
  intros s v s' _ Hs Hu. apply update_vote_ok in Hu. destruct Hu as [->|(o & _ & Hu)]; [assumption|].
  eapply inv_cast; eassumption.
Qed.

Lemma cast_count g e id o voter amount g' : cast_vote g e id o voter amount = Ok g' -> g_count g' = g_count g.
Proof. intros H. apply cast_vote_ok in H. destruct H as (p & _ & _ & _ & _ & _ & _ & ->). reflexivity. Qed.

Lemma update_count g e voter amount g' : update_votes g e voter amount = Ok g' -> g_count g' = g_count g.
Proof.
  intros H. unfold update_votes in H. bind_inv H.
  refine (fold_res_inv (fun s => g_count s = g_count g) _ _ _ _ _ eq_refl H).
  intros s v s' _ Hs Hu. apply update_vote_ok in Hu. destruct Hu as [->|(o & _ & Hu)]; [assumption|].
  apply cast_count in Hu. congruence.
Qed.

Lemma gov_execute_ok g e s m g' r :
  gov_execute g e s m = Ok (g', r) ->
  s = g_admin g /\
  match m with
  | GCreatePoll c => exists id, create_poll g e c = Ok (g', id) /\ r = Some id
  | GCastVote id o voter amount => cast_vote g e id o voter amount = Ok g' /\ r = None
  | GUpdateVotes voter amount => update_votes g e voter amount = Ok g' /\ r = None
  | GEndPoll id mx ie ae => end_poll g e id mx ie ae = Ok g' /\ r = None
  end.
Proof.
  unfold gov_execute. intros H. bind_inv H. apply guard_ok in Hb. split; [lia|].
  destruct m; bind_inv H.
  - destruct x0. inversion H; subst. eauto.
  - inversion H; subst; auto.
  - inversion H; subst; auto.
  - inversion H; subst; auto.
Qed.

Lemma step_cases g c :
  gov_step g c = g \/
  exists g' r, gov_execute g (gc_env c) (gc_sender c) (gc_msg c) = Ok (g', r) /\ gov_step g c = g'.
Proof.
  unfold gov_step. destruct (gov_execute _ _ _ _) as [[g' r]|]; [right; eauto|left; reflexivity].
Qed.

Lemma execute_inv g e s m g' r :
  inv g -> typed_msg m -> g_count g + 1 < M64 -> gov_execute g e s m = Ok (g', r) ->
  inv g' /\ g_count g' <= g_count g + 1.
Proof.
  intros Hi Ht Hc H. apply gov_execute_ok in H. destruct H as [_ H]. destruct m; cbn in Ht.
  - destruct H as (id & H & _). destruct (inv_create _ _ _ _ _ Hi Hc H) as (H1 & H2 & H3). split; [assumption|lia].
  - destruct H as [H _]. split; [eapply inv_cast; eassumption|]. apply cast_count in H. lia.
  - destruct H as [H _]. split; [eapply inv_update; eassumption|]. apply update_count in H. lia.
  - destruct H as [H _]. split; [eapply inv_end; eassumption|].
    apply end_poll_ok in H. destruct H as (p & _ & -> & _). cbn. lia.
Qed.

Lemma step_inv g c :
  inv g -> typed_msg (gc_msg c) -> g_count g + 1 < M64 -> inv (gov_step g c) /\ g_count (gov_step g c) <= g_count g + 1.
Proof.
  intros Hi Ht Hc. destruct (step_cases g c) as [->|(g' & r & H & ->)]; [split; [assumption|lia]|].
  eapply execute_inv; eassumption.
Qed.

Lemma run_inv_gen cs : forall g,
  inv g -> Forall (fun c => typed_msg (gc_msg c)) cs -> g_count g + N.of_nat (length cs) < M64 ->
  inv (gov_run g cs) /\ g_count (gov_run g cs) <= g_count g + N.of_nat (length cs).
Proof.
  induction cs as [|c t IH]; intros g Hi Ht Hc; cbn [gov_run fold_left length] in *; [split; [assumption|lia]|].
  inversion Ht; subst. destruct (step_inv g c Hi H1 ltac:(lia)) as [H3 H4].
  destruct (IH (gov_step g c) H3 H2 ltac:(lia)) as [H5 H6]. split; [exact H5|]. unfold gov_run in H6. lia.
Qed.

Lemma run_inv a cs : history cs -> inv (gov_run (gov_init a) cs) /\ g_count (gov_run (gov_init a) cs) <= N.of_nat (length cs).
Proof.
  intros [H1 H2]. pose proof (run_inv_gen cs (gov_init a) (inv_init a) H1 ltac:(cbn; lia)). cbn [gov_init g_count] in H. rewrite N.add_0_l in H. exact H.
Qed.

(** * C01 *)
Lemma reported_tally a cs id p o :
  history cs -> query_poll (gov_run (gov_init a) cs) id = Ok p ->
  votes_for p o = tally (gov_run (gov_init a) cs) id o mod M128.
Proof.
  intros Hh Hq. destruct (run_inv a cs Hh) as [(Hp & _) _]. apply ok_or_ok in Hq.
  destruct (Hp _ _ Hq) as (_ & _ & _ & _ & _ & H). rewrite tally_vsum. apply H.
Qed.

(** one vote per voter: the voters of the recorded votes are distinct *)
Lemma recorded_votes_NoDup a cs id : history cs -> NoDup (map v_voter (recorded_votes (gov_run (gov_init a) cs) id)).
Proof.
  intros Hh. destruct (run_inv a cs Hh) as [(_ & Hv & _) _].
  set (g := gov_run (gov_init a) cs) in *. clearbody g.
  unfold recorded_votes, query_poll_voters.
  assert (Hk : forall k m, In (k, m) (elems (g_votes g)) -> forall v, oget m id = Some v -> v_voter v = k).
  { intros k m Hin v E. apply oget_In in Hin. apply (Hv k id v). unfold get_vote, votes_of. rewrite Hin. exact E. }
  pose proof (okeys_NoDup (g_votes g)) as Hnd. unfold okeys in Hnd.
  induction (elems (g_votes g)) as [|[k m] t IH]; [constructor|].
  cbn [flat_map map] in *. inversion Hnd; subst.
  assert (IH' := IH (fun k' m' Hin => Hk k' m' (or_intror Hin)) H2). clear IH.
  cbn [snd fst]. destruct (oget m id) eqn:E; [|exact IH'].
  cbn [app filter fst andb map snd]. constructor; [|exact IH'].
  rewrite (Hk k m (or_introl eq_refl) v E). intros Hin. apply H1. cbn [fst].
  apply in_map_iff in Hin. destruct Hin as (v' & E1 & Hin). apply in_map_iff in Hin.
  destruct Hin as ([k' v''] & E2 & Hin). cbn in E2. subst v''. apply filter_In in Hin. destruct Hin as [Hin _].
  apply in_flat_map in Hin. destruct Hin as ([k2 m2] & Hin & Hin2). cbn in Hin2.
  destruct (oget m2 id) eqn:E2; [|destruct Hin2]. destruct Hin2 as [Heq|[]]. inversion Heq; subst.
  rewrite (Hk k' m2 (or_intror Hin) v' E2). apply in_map_iff. exists (k', m2). auto.
Qed.

Lemma recorded_votes_In g id v :
  inv g -> (In v (recorded_votes g id) <-> get_vote g (v_voter v) id = Some v).
Proof.
  intros (_ & Hv & _). unfold recorded_votes, query_poll_voters. split; intros H.
  - apply in_map_iff in H. destruct H as ([k v'] & E & H). cbn in E. subst v'. apply filter_In in H. destruct H as [H _].
    apply in_flat_map in H. destruct H as ([k2 m2] & H & H2). cbn in H2.
    destruct (oget m2 id) eqn:E2; [|destruct H2]. destruct H2 as [Heq|[]]. inversion Heq; subst.
    assert (Hg : get_vote g k id = Some v).
    { unfold get_vote, votes_of. apply oget_In in H. rewrite H. exact E2. }
    destruct (Hv _ _ _ Hg) as (_ & -> & _). exact Hg.
  - apply in_map_iff. exists (v_voter v, v). split; [reflexivity|]. apply filter_In. split; [|reflexivity].
    unfold get_vote, votes_of in H. destruct (oget (g_votes g) (v_voter v)) as [m|] eqn:E; [|discriminate].
    cbn [dflt] in H. apply in_flat_map. exists (v_voter v, m). split; [apply oget_In; exact E|]. cbn. rewrite H.
    left; reflexivity.
Qed.

(** * C03 *)
Definition same_poll_votes (g g' : gov) (id : N) : Prop :=
  (forall voter, get_vote g' voter id = get_vote g voter id) /\
  (forall p, oget (g_polls g) id = Some p ->
     exists p', oget (g_polls g') id = Some p' /\ p_results p' = p_results p).

Lemma same_refl g id : same_poll_votes g g id.
Proof. split; [reflexivity|eauto]. Qed.

Lemma cast_other g e id o voter amount g' id' :
  cast_vote g e id o voter amount = Ok g' -> id' <> id -> 
  (forall voter', get_vote g' voter' id' = get_vote g voter' id') /\ oget (g_polls g') id' = oget (g_polls g) id'.
Proof.
  intros H Hne. apply cast_vote_ok in H. destruct H as (p & _ & _ & _ & _ & _ & _ & ->). unfold cast_result. split.
  - intros voter'. rewrite get_vote_set_poll, get_set_vote.
    replace (id =? id') with false by lia. rewrite andb_false_r. reflexivity.
  - cbn. rewrite oget_oset_ne by congruence. reflexivity.
Qed.

Lemma cast_closed g e id o voter amount g' id' p :
  cast_vote g e id o voter amount = Ok g' -> oget (g_polls g) id' = Some p -> ~ open_at p (e_time e) ->
  id' <> id.
Proof.
  intros H Hp Hno ->. apply cast_vote_ok in H. destruct H as (p' & _ & _ & _ & Hg & Ho & _ & _). 
  rewrite Hp in Hg. inversion Hg; subst. contradiction.
Qed.

Lemma frozen_step g c id p :
  oget (g_polls g) id = Some p -> (forall c', gc_msg c = GCreatePoll c' -> id <> u64_add (g_count g) 1) ->
  ~ open_at p (e_time (gc_env c)) -> same_poll_votes g (gov_step g c) id.
Proof.
  intros Hp Hnew Hno. destruct (step_cases g c) as [->|(g' & r & H & ->)]; [apply same_refl|].
  apply gov_execute_ok in H. destruct H as [_ H]. destruct (gc_msg c).
  - destruct H as (nid & H & _). unfold create_poll in H. bind_inv H. inversion H; subst; clear H.
    split; [reflexivity|]. intros p' Ep. exists p'. cbn. rewrite oget_oset_ne; [auto|].
    intros E. apply (Hnew _ eq_refl). symmetry. exact E.
  - destruct H as [H _]. pose proof (cast_closed _ _ _ _ _ _ _ _ _ H Hp Hno) as Hne.
    destruct (cast_other _ _ _ _ _ _ _ _ H Hne) as [H1 H2]. split; [exact H1|].
    intros p' Ep. exists p'. rewrite H2. auto.
  - destruct H as [H _]. unfold update_votes in H. bind_inv H.
    enough (HP : same_poll_votes g g' id /\ oget (g_polls g') id = Some p) by tauto.
    refine (fold_res_inv (fun s => same_poll_votes g s id /\ oget (g_polls s) id = Some p) _ _ _ g g' _ H).
    + intros s v s' _ [Hs Hs2] Hu. apply update_vote_ok in Hu. destruct Hu as [->|(o & _ & Hu)]; [auto|].
      pose proof (cast_closed _ _ _ _ _ _ _ _ _ Hu Hs2 Hno) as Hne.
      destruct (cast_other _ _ _ _ _ _ _ _ Hu Hne) as [H1 H2]. destruct Hs as [Ha Hb']. split; [split|].
      * intros v'. rewrite H1. apply Ha.
      * intros p' Ep. rewrite H2. apply Hb'. exact Ep.
      * rewrite H2. exact Hs2.
    + split; [apply same_refl|exact Hp].
  - destruct H as [H _]. apply end_poll_ok in H. destruct H as (q & Hq & -> & _). split; [reflexivity|].
    intros p' Ep. cbn. rewrite oget_oset. destruct (id0 =? id) eqn:E.
    + apply N.eqb_eq in E. subst. rewrite Hq in Ep. inversion Ep; subst. eexists. split; reflexivity.
    + eauto.
Qed.

(** * C04: the verdict *)
Lemma fold_u128_add l : forall acc, acc < M128 -> fold_left u128_add l acc = (acc + lsum (fun v => v) l) mod M128.
Proof.
  pose proof M128_pos. induction l as [|v t IH]; intros acc Hacc; cbn [fold_left].
  - cbn. rewrite N.add_0_r. symmetry. apply N.mod_small. assumption.
  - rewrite IH by (unfold u128_add; apply N.mod_lt; lia). rewrite lsum_cons. unfold u128_add.
    rewrite N.add_mod_idemp_l by lia. f_equal. lia.
Qed.

Lemma osum_four f (m : omap N) :
  (forall k r, oget m k = Some r -> k < 4) -> osum f m = oval f m 0 + oval f m 1 + oval f m 2 + oval f m 3.
Proof.
  intros Hk. set (m1 := odel m 0). set (m2 := odel m1 1). set (m3 := odel m2 2). set (m4 := odel m3 3).
  assert (E : m4 = oempty).
  { apply omap_ext. intros k. unfold m4, m3, m2, m1. rewrite !oget_odel, oget_empty.
    destruct (3 =? k) eqn:E3; [reflexivity|]. destruct (2 =? k) eqn:E2; [reflexivity|].
    destruct (1 =? k) eqn:E1; [reflexivity|]. destruct (0 =? k) eqn:E0; [reflexivity|].
    destruct (oget m k) eqn:E; [|reflexivity]. apply Hk in E. lia. }
  pose proof (osum_odel f m 0) as H0. pose proof (osum_odel f m1 1) as H1.
  pose proof (osum_odel f m2 2) as H2. pose proof (osum_odel f m3 3) as H3.
  fold m1 in H0. fold m2 in H1. fold m3 in H2. fold m4 in H3. rewrite E, osum_empty in H3.
  assert (E1 : oval f m1 1 = oval f m 1) by (unfold oval, m1; rewrite oget_odel; reflexivity).
  assert (E2 : oval f m2 2 = oval f m 2) by (unfold oval, m2, m1; rewrite !oget_odel; reflexivity).
  assert (E3 : oval f m3 3 = oval f m 3) by (unfold oval, m3, m2, m1; rewrite !oget_odel; reflexivity).
  lia.
Qed.

Definition sum4 (p : poll) : N := votes_for p Yes + votes_for p No + votes_for p Abstain + votes_for p Veto.

Lemma total_votes_eq p :
  (forall k r, oget (p_results p) k = Some r -> k < 4) -> total_votes p = sum4 p mod M128.
Proof.
  intros Hk. unfold total_votes. rewrite fold_u128_add by apply M128_pos. f_equal.
  change (lsum (fun v => v) (ovals (p_results p))) with (lsum (fun v : N => v) (map snd (elems (p_results p)))).
  rewrite lsum_map. change (0 + osum (fun _ v => v) (p_results p) = sum4 p).
  rewrite (osum_four (fun _ v => v) _ Hk), !oval_ogetN. reflexivity.
Qed.

Lemma ratio_reaches num den pct :
  num * DEC / den < M128 -> (pct <=? ratio_or_zero num den) = true <-> reaches num den pct.
Proof.
  intros Hb. unfold ratio_or_zero, dec_checked_from_ratio, reaches.
  destruct (den =? 0) eqn:E.
  - apply N.eqb_eq in E. subst. split; intros H; [right; lia|]. destruct H as [[H _]|[_ ->]]; [lia|reflexivity].
  - apply N.eqb_neq in E. replace (num * DEC / den <? M128) with true by lia.
    rewrite N.leb_le. split; intros H.
    + left. split; [assumption|]. pose proof (N.mul_div_le (num * DEC) den E). nia.
    + destruct H as [[_ H]|[H _]]; [|lia]. apply N.div_le_lower_bound; [assumption|]. lia.
Qed.

Lemma ratio_le_one num den : num <= den -> num * DEC / den < M128.
Proof.
  intros H. destruct (N.eq_dec den 0) as [->|Hd].
  - replace num with 0 by lia. apply M128_pos.
  - eapply N.le_lt_trans; [apply N.div_le_mono; [assumption|apply N.mul_le_mono_r; exact H]|].
    rewrite N.mul_comm, N.div_mul by assumption. reflexivity.
Qed.

Lemma final_status_verdict p mx :
  (forall k r, oget (p_results p) k = Some r -> k < 4) -> sum4 p < M128 ->
  sum4 p * DEC / mx < M128 ->
  verdict (p_quorum p) (p_threshold p) (dflt (p_threshold p) (p_veto_threshold p))
          (votes_for p Yes) (votes_for p No) (votes_for p Abstain) (votes_for p Veto) mx (final_status p mx).
Proof.
  intros Hk Hs Hq.
  assert (Ht : total_votes p = sum4 p) by (rewrite total_votes_eq by assumption; apply N.mod_small; assumption).
  assert (Hd : u128_sub (total_votes p) (votes_for p Abstain) = votes_for p Yes + votes_for p No + votes_for p Veto).
  { rewrite Ht. unfold u128_sub, sum4 in *.
    replace (votes_for p Yes + votes_for p No + votes_for p Abstain + votes_for p Veto + M128 - votes_for p Abstain)
      with (votes_for p Yes + votes_for p No + votes_for p Veto + 1 * M128) by lia.
    rewrite N.mod_add by (pose proof M128_pos; lia). apply N.mod_small. lia. }
  assert (Hth : forall o, o <> Abstain ->
    (threshold_reached p o = true <->
     reaches (votes_for p o) (votes_for p Yes + votes_for p No + votes_for p Veto)
       (match o with Veto => dflt (p_threshold p) (p_veto_threshold p) | _ => p_threshold p end))).
  { intros o Ho. unfold threshold_reached, ge_threshold. rewrite Hd. apply ratio_reaches.
    apply ratio_le_one. destruct o; try congruence; lia. }
  assert (HQ : quorum_reached p (p_quorum p) mx = true <->
    reaches (votes_for p Yes + votes_for p No + votes_for p Abstain + votes_for p Veto) mx (p_quorum p)).
  { unfold quorum_reached. rewrite Ht. apply ratio_reaches. exact Hq. }
  pose proof (Hth Veto ltac:(discriminate)) as HV. pose proof (Hth Yes ltac:(discriminate)) as HY.
  pose proof (Hth No ltac:(discriminate)) as HN. cbn [outcome_u8] in *.
  unfold final_status, most_voted_over_threshold.
  assert (neg : forall b P, (b = true <-> P) -> b = false -> ~ P).
  { intros b P Hb -> HP. apply Hb in HP. discriminate. }
  destruct (quorum_reached p (p_quorum p) mx) eqn:Eq; cbn [negb].
  2:{ apply V_quorum. eapply neg; eauto. }
  assert (Q := proj1 HQ eq_refl).
  destruct (threshold_reached p Veto) eqn:EV; [cbn; apply V_veto; [exact Q|apply HV; reflexivity]|].
  assert (NV := neg _ _ HV eq_refl).
  destruct (threshold_reached p Yes) eqn:EY, (threshold_reached p No) eqn:EN.
  - destruct (N.compare_spec (votes_for p Yes) (votes_for p No)) as [E|E|E]; cbn.
    + apply V_draw; try assumption; [apply HY|apply HN]; reflexivity.
    + apply V_no; try assumption; [apply HN; reflexivity|intros _; assumption].
    + apply V_yes; try assumption; [apply HY; reflexivity|intros _; assumption].
  - cbn. apply V_yes; try assumption; [apply HY; reflexivity|]. intros H. apply HN in H. discriminate.
  - cbn. apply V_no; try assumption; [apply HN; reflexivity|]. intros H. apply HY in H. discriminate.
  - apply V_threshold; try assumption; [eapply neg; [apply HY|]|eapply neg; [apply HN|]]; reflexivity.
Qed.

Lemma verdict_functional q t v y n a ve av s1 s2 :
  verdict q t v y n a ve av s1 -> verdict q t v y n a ve av s2 -> s1 = s2.
Proof.
  intros H1 H2. destruct H1; inversion H2; subst; try reflexivity; try contradiction; exfalso.
  all: repeat match goal with
       | [ H : ?P -> _, H' : ?P |- _ ] => specialize (H H')
       end; lia.
Qed.

(** * Terms and ended status *)
Definition poll_evolves (g g' : gov) : Prop :=
  forall id p, oget (g_polls g) id = Some p ->
    exists p', oget (g_polls g') id = Some p' /\ terms p' = terms p /\ (ended p -> ended p').

Lemma evolves_refl g : poll_evolves g g.
Proof. intros id p H. eauto. Qed.
Lemma evolves_trans g1 g2 g3 : poll_evolves g1 g2 -> poll_evolves g2 g3 -> poll_evolves g1 g3.
Proof.
  intros H1 H2 id p Hp. destruct (H1 _ _ Hp) as (p' & Hp' & E & F). destruct (H2 _ _ Hp') as (p'' & Hp'' & E' & F').
  exists p''. split; [assumption|]. split; [congruence|tauto].
Qed.

Lemma cast_evolves g e id o voter amount g' : cast_vote g e id o voter amount = Ok g' -> poll_evolves g g'.
Proof.
  intros H id' p Hp. apply cast_vote_ok in H. destruct H as (q & _ & _ & _ & Hq & _ & _ & ->). cbn.
  rewrite oget_oset. destruct (id =? id') eqn:E; [|eauto].
  apply N.eqb_eq in E. subst. rewrite Hp in Hq. inversion Hq; subst. eexists. split; [reflexivity|]. split; [reflexivity|auto].
Qed.

Lemma execute_evolves g e s m g' r :
  inv g -> g_count g + 1 < M64 -> gov_execute g e s m = Ok (g', r) -> poll_evolves g g'.
Proof.
  intros Hi Hc H. apply gov_execute_ok in H. destruct H as [_ H]. destruct m.
  - destruct H as (id & H & _). intros id' p Hp. unfold create_poll in H. bind_inv H. inversion H; subst; clear H. cbn.
    assert (E : u64_add (g_count g) 1 = g_count g + 1) by (unfold u64_add; apply N.mod_small; lia).
    rewrite E, oget_oset_ne; [eauto|]. destruct Hi as (Hpi & _). apply Hpi in Hp. destruct Hp as (_ & Hp & _). lia.
  - destruct H as [H _]. eapply cast_evolves; eassumption.
  - destruct H as [H _]. unfold update_votes in H. bind_inv H.
    refine (fold_res_inv (fun s => poll_evolves g s) _ _ _ g g' (evolves_refl g) H).
    intros s0 v s' _ Hs Hu. apply update_vote_ok in Hu. destruct Hu as [->|(o & _ & Hu)]; [auto|].
    eapply evolves_trans; [exact Hs|]. eapply cast_evolves; eassumption.
  - destruct H as [H _]. apply end_poll_ok in H. destruct H as (q & Hq & -> & _). intros id' p Hp. cbn.
    rewrite oget_oset. destruct (id =? id') eqn:E; [|eauto].
    apply N.eqb_eq in E. subst. rewrite Hp in Hq. inversion Hq; subst. eexists. split; [reflexivity|]. split; [reflexivity|].
    intros _ [t Ht]. eapply final_status_not_in_progress; exact Ht.
Qed.

Lemma run_evolves cs : forall g,
  inv g -> Forall (fun c => typed_msg (gc_msg c)) cs -> g_count g + N.of_nat (length cs) < M64 ->
  poll_evolves g (gov_run g cs).
Proof.
  induction cs as [|c t IH]; intros g Hi Ht Hc; cbn [gov_run fold_left length] in *; [apply evolves_refl|].
  inversion Ht; subst. destruct (step_inv g c Hi H1 ltac:(lia)) as [H3 H4].
  eapply evolves_trans; [|apply IH; [assumption..|lia]].
  destruct (step_cases g c) as [E|(g' & r & H & E)]; rewrite E; [apply evolves_refl|].
  eapply execute_evolves; try eassumption. lia.
Qed.

(** * C07 *)
Lemma execute_admin g e s m g' r : gov_execute g e s m = Ok (g', r) -> g_admin g' = g_admin g.
Proof.
  intros H. apply gov_execute_ok in H. destruct H as [_ H]. destruct m.
  - destruct H as (id & H & _). unfold create_poll in H. bind_inv H. inversion H; reflexivity.
  - destruct H as [H _]. apply cast_vote_ok in H. destruct H as (q & _ & _ & _ & _ & _ & _ & ->). reflexivity.
  - destruct H as [H _]. unfold update_votes in H. bind_inv H.
    refine (fold_res_inv (fun s => g_admin s = g_admin g) _ _ _ g g' eq_refl H).
    intros s0 v s' _ Hs Hu. apply update_vote_ok in Hu. destruct Hu as [->|(o & _ & Hu)]; [auto|].
    apply cast_vote_ok in Hu. destruct Hu as (q & _ & _ & _ & _ & _ & _ & ->). exact Hs.
  - destruct H as [H _]. apply end_poll_ok in H. destruct H as (q & Hq & -> & _). reflexivity.
Qed.

Lemma run_admin cs : forall g, g_admin (gov_run g cs) = g_admin g.
Proof.
  induction cs as [|c t IH]; intros g; [reflexivity|]. cbn. fold (gov_run (gov_step g c) t). rewrite IH.
  destruct (step_cases g c) as [->|(g' & r & H & ->)]; [reflexivity|]. eapply execute_admin; eassumption.
Qed.

(** * C08 *)
Lemma early_end_conditions p now mx :
  (forall k r, oget (p_results p) k = Some r -> k < 4) -> sum4 p < M128 -> sum4 p * DEC / mx < M128 ->
  now < p_ends_at p -> validate_can_end_early now mx p = Ok tt ->
  final_status p mx <> Rejected QuorumNotReached /\ final_status p mx <> Rejected ThresholdNotReached.
Proof.
  intros Hk Hs Hq Hn H. unfold validate_can_end_early in H. replace (p_ends_at p <=? now) with false in H by lia.
  bind_inv H. apply guard_ok in Hb. unfold final_status. rewrite Hb. cbn [negb].
  destruct (most_voted_over_threshold p); [discriminate| |split; discriminate].
  destruct (_ =? _); [split; discriminate|]. destruct (_ =? _); split; discriminate.
Qed.

(** * C10: weight updates *)
Definition open_now (p : poll) (now : N) : bool :=
  match p_status p with InProgress t => now <? t | _ => false end.

Definition bumped (amount : N) (v : vote) : vote := mk_vote (v_poll v) (v_voter v) (v_outcome v) amount.

(** one iteration, on a state satisfying the invariant where every poll has started *)
Lemma update_vote_spec g e voter amount id v :
  inv g -> amount < M128 -> (forall i p, oget (g_polls g) i = Some p -> p_started_at p <= e_time e) ->
  get_vote g voter id = Some v ->
  exists g' p, update_vote e voter amount g v = Ok g' /\ oget (g_polls g) id = Some p /\
    inv g' /\ g_count g' = g_count g /\
    (forall voter' id', (voter', id') <> (voter, id) -> get_vote g' voter' id' = get_vote g voter' id') /\
    get_vote g' voter id = Some (if open_now p (e_time e) then bumped amount v else v) /\
    (forall i q, oget (g_polls g) i = Some q -> exists q', oget (g_polls g') i = Some q' /\ p_status q' = p_status q
         /\ p_started_at q' = p_started_at q) /\
    (forall i, oget (g_polls g) i = None -> oget (g_polls g') i = None).
Proof.
  intros Hi Ha Hst Hg. pose proof Hi as (Hp & Hv & Hall & Hc).
  destruct (Hv _ _ _ Hg) as (E1 & E2 & E3 & E4 & E5 & p & E6 & E7).
  destruct (Hp _ _ E6) as (F1 & F2 & F3 & F4 & _).
  unfold update_vote. rewrite E1, E6. cbn [ok_or bind].
  destruct (open_now p (e_time e)) eqn:Eo; unfold open_now in Eo.
  - destruct (p_status p) as [t| |] eqn:Es; try discriminate. rewrite Eo.
    destruct (outcome_of_u8_ok _ E4) as (o & Ho1 & Ho2). rewrite Ho1. cbn [bind].
    assert (Hcast : cast_vote g e id o voter amount = Ok (cast_result g id p o voter amount)).
    { apply cast_vote_succeeds; try assumption; try lia.
      - split; [eauto|]. split; [eapply Hst; eassumption|]. rewrite <- (F3 _ eq_refl). lia.
      - intros v' Ev'. rewrite Hg in Ev'. inversion Ev'; subst. assumption. }
    rewrite Hcast. exists (cast_result g id p o voter amount), p.
    split; [reflexivity|]. split; [reflexivity|]. split; [apply (inv_cast g e id o voter amount); assumption|]. split; [reflexivity|]. split; [|split; [|split]].
    + intros voter' id' Hne. unfold cast_result. rewrite get_vote_set_poll, get_set_vote.
      destruct ((voter =? voter') && (id =? id')) eqn:E; [|reflexivity]. exfalso. apply Hne. f_equal; lia.
    + unfold cast_result. rewrite get_vote_set_poll, get_set_vote, !N.eqb_refl. cbn [andb].
      unfold open_now. rewrite Es, Eo. unfold bumped. rewrite E1, E2, Ho2. reflexivity.
    + intros i q Hq. cbn. rewrite oget_oset. destruct (id =? i) eqn:E.
      * apply N.eqb_eq in E. subst i. rewrite Hq in E6. inversion E6; subst. eexists. split; [reflexivity|]. split; [|reflexivity].
        cbn. reflexivity.
      * eauto.
    + intros i Hn. cbn. rewrite oget_oset. destruct (id =? i) eqn:E; [|assumption].
      apply N.eqb_eq in E. subst i. congruence.
  - exists g, p. assert (Hsame : (match p_status p with
      | InProgress ends_at => if e_time e <? ends_at then o <- outcome_of_u8 (v_outcome v);; cast_vote g e id o voter amount else Ok g
      | _ => Ok g end) = Ok g).
    { destruct (p_status p); [rewrite Eo|..]; reflexivity. }
    rewrite Hsame. split; [reflexivity|]. split; [reflexivity|]. split; [assumption|]. split; [reflexivity|].
    split; [reflexivity|]. split; [unfold open_now; rewrite Eo; exact Hg|]. split; [eauto|auto].
Qed.

Definition opened (g : gov) (id now : N) : bool :=
  match oget (g_polls g) id with Some p => open_now p now | None => false end.

Lemma update_loop e voter amount : amount < M128 -> forall vs g,
  inv g -> (forall i p, oget (g_polls g) i = Some p -> p_started_at p <= e_time e) ->
  NoDup (map v_poll vs) -> (forall v, In v vs -> get_vote g voter (v_poll v) = Some v) ->
  exists g', fold_res (update_vote e voter amount) g vs = Ok g' /\ inv g' /\
    (forall voter' id', voter' <> voter \/ ~ In id' (map v_poll vs) -> get_vote g' voter' id' = get_vote g voter' id') /\
    (forall v, In v vs -> get_vote g' voter (v_poll v) = Some (if opened g (v_poll v) (e_time e) then bumped amount v else v)).
Proof.
  intros Ha. induction vs as [|v t IH]; intros g Hi Hst Hnd Hin.
  - exists g. cbn. split; [reflexivity|]. split; [assumption|]. split; [reflexivity|]. intros v [].
  - cbn [map] in Hnd. inversion Hnd; subst.
    destruct (update_vote_spec g e voter amount (v_poll v) v Hi Ha Hst (Hin v (or_introl eq_refl)))
      as (g1 & p & Hu & Hgp & Hi1 & Hc1 & Hoth & Hme & Hpol & Hnone).
    assert (Hst1 : forall i q, oget (g_polls g1) i = Some q -> p_started_at q <= e_time e).
    { intros i q Hq. destruct (oget (g_polls g) i) as [q0|] eqn:E.
      - destruct (Hpol _ _ E) as (q' & Hq' & _ & Hs'). rewrite Hq in Hq'. inversion Hq'; subst. rewrite Hs'. eapply Hst; eassumption.
      - rewrite (Hnone _ E) in Hq. discriminate. }
    assert (Hop : forall i, opened g1 i (e_time e) = opened g i (e_time e)).
    { intros i. unfold opened. destruct (oget (g_polls g) i) as [q0|] eqn:E.
      - destruct (Hpol _ _ E) as (q' & Hq' & Hs' & _). rewrite Hq'. unfold open_now. rewrite Hs'. reflexivity.
      - rewrite (Hnone _ E). reflexivity. }
    destruct (IH g1 Hi1 Hst1 H2) as (g2 & Hf & Hi2 & Ho2 & Hm2).
    { intros v' Hv'. rewrite Hoth; [apply Hin; right; assumption|].
      intros Heq. inversion Heq. apply H1. rewrite <- H0. apply in_map. assumption. }
    exists g2. cbn [fold_res]. rewrite Hu. cbn. split; [exact Hf|]. split; [exact Hi2|]. split.
    + intros voter' id' Hor. rewrite Ho2.
      * apply Hoth. intros Heq. inversion Heq; subst. destruct Hor as [H|H]; [congruence|]. apply H. left; reflexivity.
      * destruct Hor as [H|H]; [left; assumption|right; intros Hc'; apply H; right; assumption].
    + intros v' [->|Hv'].
      * rewrite Ho2 by (right; assumption). rewrite Hme. unfold opened. rewrite Hgp. reflexivity.
      * rewrite (Hm2 _ Hv'), Hop. reflexivity.
Qed.

Lemma query_voter_all g voter :
  inv g -> voter <> 0 -> exists vs, query_voter g voter None None = Ok vs /\ NoDup (map v_poll vs) /\
    (forall v, In v vs <-> get_vote g voter (v_poll v) = Some v).
Proof.
  intros (_ & Hv & _) H0. unfold query_voter, addr_validate. replace (voter =? 0) with false by lia. cbn [bind orange].
  eexists. split; [reflexivity|].
  assert (Hk : forall k v, In (k, v) (elems (votes_of g voter)) -> v_poll v = k).
  { intros k v Hin. apply (Hv voter k v). unfold get_vote. apply oget_In. exact Hin. }
  split.
  - pose proof (okeys_NoDup (votes_of g voter)) as Hnd. unfold okeys in Hnd. rewrite map_map.
    erewrite map_ext_in; [exact Hnd|]. intros [k v] Hin. cbn. apply (Hk k v Hin).
  - intros v. split; intros H.
    + apply in_map_iff in H. destruct H as ([k v'] & E & Hin). cbn in E. subst v'.
      rewrite (Hk _ _ Hin). apply oget_In. exact Hin.
    + apply in_map_iff. exists (v_poll v, v). split; [reflexivity|]. apply oget_In. exact H.
Qed.

Lemma update_votes_spec g e voter amount :
  inv g -> amount < M128 -> voter <> 0 ->
  (forall i p, oget (g_polls g) i = Some p -> p_started_at p <= e_time e) ->
  exists g', update_votes g e voter amount = Ok g' /\
    (forall voter' id, voter' <> voter -> get_vote g' voter' id = get_vote g voter' id) /\
    (forall id, get_vote g' voter id =
       match get_vote g voter id with
       | Some v => Some (if opened g id (e_time e) then bumped amount v else v)
       | None => None
       end).
Proof.
  intros Hi Ha H0 Hst. destruct (query_voter_all g voter Hi H0) as (vs & Hq & Hnd & Hin).
  destruct (update_loop e voter amount Ha vs g Hi Hst Hnd (fun v H => proj1 (Hin v) H)) as (g' & Hf & _ & Ho & Hm).
  exists g'. unfold update_votes. rewrite Hq. cbn [bind]. split; [exact Hf|]. split.
  - intros voter' id Hne. apply Ho. left; assumption.
  - intros id. destruct (get_vote g voter id) as [v|] eqn:E.
    + assert (Ev : v_poll v = id) by (destruct Hi as (_ & Hv & _); apply (Hv _ _ _ E)).
      subst id. apply Hm. apply Hin. exact E.
    + rewrite Ho; [exact E|]. right. intros Hc. apply in_map_iff in Hc. destruct Hc as (v & Ev & Hv').
      apply Hin in Hv'. congruence.
Qed.

(** polls of a history have started by the time of the last block *)
Definition started_by (g : gov) (now : N) : Prop := forall i p, oget (g_polls g) i = Some p -> p_started_at p <= now.

Lemma cast_started g e id o voter amount g' T : cast_vote g e id o voter amount = Ok g' -> started_by g T -> started_by g' T.
Proof.
  intros H Hs i p Hp. apply cast_vote_ok in H. destruct H as (q & _ & _ & _ & Hq & _ & _ & ->).
  cbn in Hp. rewrite oget_oset in Hp. destruct (id =? i); [|eapply Hs; eassumption].
  inversion Hp; subst. cbn. eapply Hs; eassumption.
Qed.

Lemma step_started g c T : started_by g T -> T <= e_time (gc_env c) -> started_by (gov_step g c) (e_time (gc_env c)).
Proof.
  intros Hs Hle. assert (Hs' : started_by g (e_time (gc_env c))) by (intros i p Hp; apply Hs in Hp; lia).
  clear Hs Hle. destruct (step_cases g c) as [->|(g' & r & H & ->)]; [assumption|].
  apply gov_execute_ok in H. destruct H as [_ H]. destruct (gc_msg c).
  - destruct H as (id & H & _). unfold create_poll in H. bind_inv H. inversion H; subst; clear H.
    intros i p Hp. cbn in Hp. rewrite oget_oset in Hp. destruct (_ =? i); [|eapply Hs'; eassumption].
    inversion Hp; subst; cbn. lia.
  - destruct H as [H _]. eapply cast_started; eassumption.
  - destruct H as [H _]. unfold update_votes in H. bind_inv H.
    refine (fold_res_inv (fun s => started_by s _) _ _ _ g g' Hs' H).
    intros s0 v s' _ Hs Hu. apply update_vote_ok in Hu. destruct Hu as [->|(o & _ & Hu)]; [auto|].
    eapply cast_started; eassumption.
  - destruct H as [H _]. apply end_poll_ok in H. destruct H as (q & Hq & -> & _). intros i p Hp. cbn in Hp.
    rewrite oget_oset in Hp. destruct (id =? i); [|eapply Hs'; eassumption]. inversion Hp; subst. cbn. eapply Hs'; eassumption.
Qed.

Lemma started_gen cs : forall g T now,
  started_by g T -> T <= now -> times_upto cs now -> Forall (fun c => T <= e_time (gc_env c)) cs -> started_by (gov_run g cs) now.
Proof.
  induction cs as [|c t IH]; intros g T now Hs Hle Ht Hf; cbn in *.
  - intros i p Hp. apply Hs in Hp. lia.
  - inversion Hf; subst. destruct Ht as (Ht1 & Ht2 & Ht3).
    eapply IH; [eapply step_started; eassumption|assumption..].
Qed.

Lemma started_run a cs now : times_upto cs now -> started_by (gov_run (gov_init a) cs) now.
Proof.
  intros H. apply (started_gen cs (gov_init a) 0 now); try lia; try assumption.
  - intros i p Hp. cbn in Hp. discriminate.
  - apply Forall_forall. intros; lia.
Qed.
