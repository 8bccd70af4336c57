(** Lemmas about the membership contracts. *)
From Verif Require Import Base OMap OMapLemmas Assets MemberModel MemberSpec.

Lemma not_restricted_ok o u x : not_restricted o u = Ok x -> mo_restricted o u = Ok false.
Proof. unfold not_restricted. intros H. binv H. destruct x0; [discriminate|assumption]. Qed.

Lemma controller_only_ok o u x : controller_only o u = Ok x -> mo_controller o = Ok u.
Proof. unfold controller_only. intros H. binv H. apply N.eqb_eq in H. congruence. Qed.

(** Take apart every successful computation in the context. *)
Ltac allb :=
  repeat match goal with
  | H : bind _ _ = Ok _ |- _ => binv H
  | H : (let '(_, _) := ?x in _) = Ok _ |- _ => destruct x
  | H : not_restricted _ _ = Ok _ |- _ => apply not_restricted_ok in H
  | H : controller_only _ _ = Ok _ |- _ => apply controller_only_ok in H
  | H : Ok _ = Ok _ |- _ => inversion H; clear H; subst
  | H : Err _ = Ok _ |- _ => discriminate H
  end; clean.

Global Arguments paid_out outs : simpl never.
Global Arguments staked_in st c : simpl never.

(** * Snapshots *)

Lemma lset_last {V} (l : list (N * V)) k v :
  (forall k' v', In (k', v') l -> k' < k) -> lset l k v = l ++ [(k, v)].
Proof.
  induction l as [|[k' v'] t IH]; intros H; cbn; [reflexivity|].
  pose proof (H k' v' (or_introl eq_refl)) as Hk.
  destruct (k <? k') eqn:E1; [apply N.ltb_lt in E1; lia|].
  destruct (k =? k') eqn:E2; [apply N.eqb_eq in E2; lia|].
  rewrite IH; [reflexivity|]. intros k2 v2 Hi. apply (H k2 v2). right. assumption.
Qed.

Lemma elems_oset_last {V} (m : omap V) k v :
  (forall k' v', In (k', v') (elems m) -> k' < k) -> elems (oset m k v) = elems m ++ [(k, v)].
Proof. intros H. unfold oset. cbn. apply lset_last. exact H. Qed.

Definition log_upto (bound : N) (s : snap) : Prop := forall k v, In (k, v) (elems (s_log s)) -> k <= bound.

Lemma log_upto_mono b b' s : log_upto b s -> b <= b' -> log_upto b' s.
Proof. intros H Hb k v Hi. pose proof (H k v Hi). lia. Qed.

Lemma filter_none {A} (f : A -> bool) l : (forall a, In a l -> f a = false) -> filter f l = [].
Proof.
  induction l as [|a t IH]; intros H; cbn; [reflexivity|].
  rewrite (H a (or_introl eq_refl)). apply IH. intros b Hb. apply H. right. assumption.
Qed.

Lemma snap_at_later s b h : log_upto b s -> b < h -> snap_at s h = s_current s.
Proof.
  intros H Hb. unfold snap_at. rewrite filter_none; [reflexivity|].
  intros [k v] Hi. cbn. apply N.leb_gt. pose proof (H k v Hi). lia.
Qed.

Lemma snap_save_at s v h h' : log_upto h' s -> h <= h' -> snap_at (snap_save s v h') h = snap_at s h.
Proof.
  intros Hu Hh. unfold snap_at, snap_save. cbn.
  destruct (oget (s_log s) h') as [x|] eqn:E.
  - apply oget_In in E.
    destruct (filter (fun kv => h <=? fst kv) (elems (s_log s))) as [|[k y] t] eqn:Ef; [|reflexivity].
    assert (In (h', x) []) as [] by (rewrite <- Ef; apply filter_In; split; [assumption|cbn; apply N.leb_le; assumption]).
  - rewrite elems_oset_last.
    2:{ intros k y Hi. pose proof (Hu k y Hi). assert (k <> h'); [|lia].
        intros ->. apply oget_In in Hi. congruence. }
    rewrite filter_app. cbn. apply N.leb_le in Hh. rewrite Hh.
    destruct (filter (fun kv => h <=? fst kv) (elems (s_log s))) as [|[k y] t]; reflexivity.
Qed.

Lemma snap_save_log s v h b : log_upto b s -> b <= h -> log_upto h (snap_save s v h).
Proof.
  intros Hu Hb k x Hi. unfold snap_save in Hi. cbn in Hi.
  destruct (oget (s_log s) h) eqn:E.
  - pose proof (Hu k x Hi). lia.
  - apply oget_In in Hi. rewrite oget_oset in Hi. destruct (h =? k) eqn:Ek; [apply N.eqb_eq in Ek; lia|].
    apply oget_In in Hi. pose proof (Hu k x Hi). lia.
Qed.

Lemma log_upto_empty b : log_upto b snap_empty.
Proof. intros k v []. Qed.

(** * Pieces *)

Lemma total_save m e t : total_weight (save_total_weight m e t) = t.
Proof. reflexivity. Qed.

Definition sum_ok (m : members) : Prop :=
  total_weight m = osum (fun _ w => w) (m_weights m) /\
  dflt 0 (s_current (m_total_seconds m)) = total_weight m.

Lemma osum_set (w : omap N) u x :
  osum (fun _ w => w) (oset w u x) + ogetN w u = osum (fun _ w => w) w + x.
Proof.
  pose proof (osum_oset (fun _ w : N => w) w u x) as H. cbv beta in H. rewrite oval_ogetN in H. lia.
Qed.

Lemma weight_le_total m u : sum_ok m -> member_weight m u <= total_weight m.
Proof.
  intros [H _]. rewrite H. unfold member_weight. rewrite <- oval_ogetN. apply oval_le.
Qed.

Lemma told_report m h ch : told h (report m ch) = if ohas (m_hooks m) h then ch else [].
Proof.
  unfold told, report.
  assert (G : forall l, NoDup l -> flat_map (fun o => match o with OReport h' ch0 => if h' =? h then ch0 else [] | _ => [] end)
            (map (fun h0 => OReport h0 ch) l) = if existsb (N.eqb h) l then ch else []).
  { induction l as [|a t IH]; intros Hn; cbn; [reflexivity|]. inversion Hn; subst.
    rewrite (N.eqb_sym h a). destruct (a =? h) eqn:E; cbn.
    - apply N.eqb_eq in E. subst. rewrite IH by assumption.
      destruct (existsb (N.eqb h) t) eqn:Ex; [|apply app_nil_r].
      apply existsb_exists in Ex. destruct Ex as [y [Hy Ey]]. apply N.eqb_eq in Ey. subst. contradiction.
    - apply IH. assumption. }
  rewrite G by apply okeys_NoDup.
  destruct (ohas (m_hooks m) h) eqn:E.
  - assert (Hx : existsb (N.eqb h) (okeys (m_hooks m)) = true).
    { apply existsb_exists. exists h. split; [|apply N.eqb_refl]. apply okeys_In. apply ohas_true. assumption. }
    rewrite Hx. reflexivity.
  - destruct (existsb (N.eqb h) (okeys (m_hooks m))) eqn:Ex; [|reflexivity].
    apply existsb_exists in Ex. destruct Ex as [y [Hy Ey]]. apply N.eqb_eq in Ey. subst.
    apply okeys_In in Hy. apply ohas_true in Hy. congruence.
Qed.

Lemma paid_report m ch : paid_out (report m ch) = 0.
Proof. unfold paid_out, report. apply lsum_zero. intros o Ho. apply in_map_iff in Ho. destruct Ho as [h [<- _]]. reflexivity. Qed.

Lemma add_stake_ok s e u a s' outs :
  add_stake s e u a = Ok (s', outs) ->
  let m := st_members s in let w := member_weight m u in
  let m' := save_total_weight (set_member_weight m u (w + a)) e (total_weight m + a) in
  s' = st_with_members s m' /\ outs = report m' [mk_change u w (w + a)] /\
  w + a < M128 /\ total_weight m + a < M128.
Proof.
  unfold add_stake, increment_member_weight, increment_total_weight. intros H. allb. auto.
Qed.

Lemma stake_token_ok o s e a user s' outs :
  stake_token o s e a user = Ok (s', outs) ->
  user <> 0 /\ mo_restricted o user = Ok false /\ add_stake s e user a = Ok (s', outs).
Proof.
  unfold stake_token. intros H. allb. auto.
Qed.

Lemma stake_denom_ok o s e sender coins user s' outs :
  stake_denom o s e sender coins user = Ok (s', outs) ->
  exists d a, coins = [(d, a)] /\ st_asset s = Native d /\
    let u := dflt sender user in
    (user <> Some 0) /\ mo_restricted o u = Ok false /\ add_stake s e u a = Ok (s', outs).
Proof.
  unfold stake_denom. intros H.
  destruct coins as [|[d a] [|? ?]]; try discriminate. allb. exists d, a.
  split; [reflexivity|]. split. { destruct (st_asset s) as [x3|x3|x3 y3]; cbn in Hb; try discriminate. apply N.eqb_eq in Hb. congruence. }
  destruct user as [u|]; cbn; clean.
  - split; [congruence|]. split; assumption.
  - split; [discriminate|]. split; assumption.
Qed.

Lemma unstake_ok s e u a s' outs :
  unstake s e u a = Ok (s', outs) ->
  let m := st_members s in let w := member_weight m u in
  let m' := save_total_weight (set_member_weight m u (w - a)) e (total_weight m - a) in
  exists r, calculate_release_at e (st_period s) = Ok r /\
  s' = st_with_claims (st_with_members s m') (st_next_claim s + 1)
         (oset (st_claims s) (st_next_claim s) (mk_claim (st_next_claim s) u a r)) /\
  outs = report m' [mk_change u w (w - a)] /\
  a <= w /\ a <= total_weight m /\ st_next_claim s + 1 < M64.
Proof.
  unfold unstake, decrement_member_weight, decrement_total_weight, add_claim. intros H. allb.
  eexists. split; [eassumption|]. split; [reflexivity|]. split; [reflexivity|]. split; [lia|]. split; assumption.
Qed.

Lemma add_stakes_ok o s e amount l s' outs :
  add_stakes o s e amount l = Ok (s', outs) ->
  exists m changes,
    fold_res (add_stakes_one o) (st_members s, [], 0) l = Ok (m, changes, amount) /\
    let m' := save_total_weight m e (total_weight m + amount) in
    s' = st_with_members s m' /\ outs = report m' changes /\ total_weight m + amount < M128.
Proof.
  unfold add_stakes, increment_total_weight. intros H. allb. apply N.eqb_eq in Hb0. subst.
  eexists _, _. split; [eassumption|]. split; [reflexivity|]. split; [reflexivity|]. assumption.
Qed.

(** [add_stakes]: the loop raises weights by the sum, reports them step by step, and touches nothing else. *)
Lemma add_stakes_loop o l : forall m ch sum m' ch' sum',
  fold_res (add_stakes_one o) (m, ch, sum) l = Ok (m', ch', sum') ->
  exists w more, m' = with_member_weights m w /\ ch' = ch ++ more /\
    osum (fun _ w => w) w + sum = osum (fun _ w => w) (m_weights m) + sum' /\
    (forall u, ogetN (m_weights m) u <= ogetN w u) /\
    (forall u, replay u (ogetN (m_weights m) u) more = Some (ogetN w u)) /\
    (forall u, ogetN (m_weights m) u < ogetN w u -> mo_restricted o u = Ok false) /\
    (forall u, ogetN w u = ogetN (m_weights m) u + lsum (fun p => if fst p =? u then snd p else 0) l).
Proof.
  induction l as [|[user a] t IH]; intros m ch sum m' ch' sum' H; cbn [fold_res] in H.
  - inversion H; subst. exists (m_weights m'), []. rewrite app_nil_r. destruct m'; cbn.
    split; [reflexivity|]. split; [reflexivity|]. split; [lia|]. split; [intros; lia|]. split; [reflexivity|].
    split; [intros; lia|]. intros. lia.
  - apply bind_ok in H. destruct H as [[[m1 ch1] sum1] [H1 H]].
    unfold add_stakes_one in H1. destruct (a =? 0) eqn:Ea.
    + apply N.eqb_eq in Ea. inversion H1; subst. apply IH in H. destruct H as [w [more [E1 [E2 [E3 [E4 [E5 [E6 E7]]]]]]]].
      exists w, more. split; [assumption|]. split; [assumption|]. split; [assumption|]. split; [assumption|]. split; [assumption|].
      split; [assumption|]. intros u. rewrite E7. rewrite lsum_cons. cbn [fst snd]. destruct (user =? u); lia.
    + allb. apply N.eqb_neq in Ea.
      apply IH in H. destruct H as [w [more [E1 [E2 [E3 [E4 [E5 [E6 E7]]]]]]]].
      unfold set_member_weight, member_weight in *. cbn [with_member_weights m_weights] in *.
      exists w, (mk_change user (ogetN (m_weights m) user) (ogetN (m_weights m) user + a) :: more).
      assert (Hg : forall u, ogetN (oset (m_weights m) user (ogetN (m_weights m) user + a)) u = ogetN (m_weights m) u + if user =? u then a else 0).
      { intros u. rewrite ogetN_oset. destruct (user =? u) eqn:E; [apply N.eqb_eq in E; subst; reflexivity|lia]. }
      split; [rewrite E1; reflexivity|]. split; [rewrite E2, <- app_assoc; reflexivity|].
      split. { pose proof (osum_set (m_weights m) user (ogetN (m_weights m) user + a)). lia. }
      split. { intros u. pose proof (E4 u). rewrite Hg in H. lia. }
      split. { intros u. unfold replay. cbn [fold_left wc_user wc_old wc_new].
               pose proof (E5 u) as E5'. rewrite Hg in E5'. destruct (user =? u) eqn:E.
               - apply N.eqb_eq in E. subst. rewrite N.eqb_refl. exact E5'.
               - rewrite N.add_0_r in E5'. exact E5'. }
      split. { intros u Hu. destruct (user =? u) eqn:E.
               - apply N.eqb_eq in E. subst. assumption.
               - apply E6. rewrite Hg, E. lia. }
      intros u. rewrite E7, Hg. rewrite lsum_cons. cbn [fst snd]. lia.
Qed.

Lemma add_claims_loop l : forall s total s' total',
  fold_res (fun st c =>
      let '(s, total) := st in
      let '(user, a, r) := c in
      u <- addr_validate user ;;
      s <- add_claim s u a r ;;
      total <- uint_add total a ;;
      Ok (s, total)) (s, total) l = Ok (s', total') ->
  (forall id c, oget (st_claims s) id = Some c -> id < st_next_claim s) ->
  exists n cl, s' = st_with_claims s n cl /\ st_next_claim s <= n /\
    osum (fun _ c => cl_amount c) cl + total = osum (fun _ c => cl_amount c) (st_claims s) + total' /\
    (forall id, id < st_next_claim s -> oget cl id = oget (st_claims s) id) /\
    (forall id c, oget cl id = Some c -> id < n /\ (st_next_claim s <= id -> cl_id c = id /\ In (cl_user c, cl_amount c, cl_release c) l)).
Proof.
  induction l as [|[[user a] r] t IH]; intros s total s' total' H Hk; cbn [fold_res] in H.
  - inversion H; subst. exists (st_next_claim s'), (st_claims s'). destruct s'; cbn in *.
    split; [reflexivity|]. split; [lia|]. split; [lia|]. split; [reflexivity|].
    intros id c Hc. split; [eapply Hk; eassumption|]. intros Hge. apply Hk in Hc. lia.
  - apply bind_ok in H. destruct H as [[s1 t1] [H1 H]]. unfold add_claim in H1. allb.
    apply IH in H.
    2:{ cbn. intros id c Hc. rewrite oget_oset in Hc. destruct (st_next_claim s =? id) eqn:E.
        - apply N.eqb_eq in E. lia.
        - apply Hk in Hc. lia. }
    destruct H as [n [cl [E1 [E2 [E3 [E4 E5]]]]]]. cbn in *.
    exists n, cl. split; [rewrite E1; reflexivity|]. split; [lia|].
    split. { pose proof (osum_oset (fun _ c => cl_amount c) (st_claims s) (st_next_claim s) (mk_claim (st_next_claim s) user a r)) as Ho.
             cbn in Ho. unfold oval in Ho. destruct (oget (st_claims s) (st_next_claim s)) eqn:E.
             - apply Hk in E. lia.
             - lia. }
    split. { intros id Hid. rewrite E4 by lia. rewrite oget_oset. destruct (st_next_claim s =? id) eqn:E; [apply N.eqb_eq in E; lia|reflexivity]. }
    intros id c Hc. pose proof (E5 id c Hc) as [F1 F2]. split; [assumption|]. intros Hge.
    destruct (N.eq_dec id (st_next_claim s)) as [->|Hne].
    + rewrite E4 in Hc by lia. rewrite oget_oset_eq in Hc. inversion Hc; subst. cbn. split; [reflexivity|left; reflexivity].
    + destruct F2 as [F2 F3]; [lia|]. split; [assumption|right; assumption].
Qed.

(** * Claims *)

Lemma filter_filter {A} (f g : A -> bool) l : filter f (filter g l) = filter (fun a => g a && f a) l.
Proof.
  induction l as [|a t IH]; cbn; [reflexivity|]. destruct (g a); cbn; [destruct (f a); rewrite IH; reflexivity|exact IH].
Qed.

Lemma ovals_In {V} (m : omap V) v : In v (ovals m) <-> exists k, oget m k = Some v.
Proof.
  unfold ovals. rewrite in_map_iff. split.
  - intros [[k w] [<- H]]. exists k. apply oget_In. assumption.
  - intros [k H]. exists (k, v). split; [reflexivity|]. apply oget_In. assumption.
Qed.

Lemma fold_odel {V} (kf : V -> N) (l : list V) : forall m k,
  oget (fold_left (fun (m : omap V) c => odel m (kf c)) l m) k =
  if existsb (fun c => kf c =? k) l then None else oget m k.
Proof.
  induction l as [|c t IH]; intros m k; cbn; [reflexivity|]. rewrite IH, oget_odel.
  destruct (kf c =? k); cbn; [destruct (existsb _ t); reflexivity|reflexivity].
Qed.

Lemma del_matching {V} (kf : V -> N) (p : V -> bool) (m : omap V) :
  (forall k c, oget m k = Some c -> kf c = k) ->
  fold_left (fun m c => odel m (kf c)) (filter p (ovals m)) m = ofilter (fun _ c => negb (p c)) m.
Proof.
  intros Hk. apply omap_ext. intros k. rewrite fold_odel, oget_ofilter.
  destruct (existsb (fun c => kf c =? k) (filter p (ovals m))) eqn:E.
  - apply existsb_exists in E. destruct E as [c [Hc Ec]]. apply N.eqb_eq in Ec. apply filter_In in Hc.
    destruct Hc as [Hc Hp]. apply ovals_In in Hc. destruct Hc as [k' Hc]. pose proof (Hk _ _ Hc). subst k'. rewrite Ec in Hc.
    rewrite Hc, Hp. reflexivity.
  - destruct (oget m k) as [c|] eqn:Ec; [|reflexivity]. destruct (p c) eqn:Ep; [|reflexivity].
    exfalso. assert (H : existsb (fun c => kf c =? k) (filter p (ovals m)) = true); [|congruence].
    apply existsb_exists. exists c. split; [|apply N.eqb_eq; eapply Hk; eassumption].
    apply filter_In. split; [|assumption]. apply ovals_In. eauto.
Qed.

Lemma osum_split {V} (f : V -> N) (p : V -> bool) (m : omap V) :
  osum (fun _ c => f c) (ofilter (fun _ c => negb (p c)) m) + lsum f (filter p (ovals m)) = osum (fun _ c => f c) m.
Proof.
  unfold osum, ofilter, ovals. cbn [elems]. induction (elems m) as [|[k c] t IH]; cbn [filter map fst snd]; [reflexivity|].
  destruct (p c) eqn:E; cbn [negb]; rewrite ?lsum_cons; cbn [fst snd]; lia.
Qed.

Definition keyed (s : staking) : Prop :=
  forall id c, oget (st_claims s) id = Some c -> cl_id c = id /\ id < st_next_claim s.
Definition nkeyed (s : nft_staking) : Prop :=
  forall id c, oget (ns_claims s) id = Some c -> nc_id c = id /\ id < ns_next_claim s.

Lemma releasable_due s e u : releasable_claims s e u = filter (due e u) (ovals (st_claims s)).
Proof. unfold releasable_claims, claims_of. rewrite filter_filter. reflexivity. Qed.

Lemma nft_releasable_due s e u : releasable_nft_claims s e u = filter (nft_due e u) (ovals (ns_claims s)).
Proof. unfold releasable_nft_claims, nft_claims_of. rewrite filter_filter. reflexivity. Qed.

Lemma claim_loop l : forall (cm : omap claim) t,
  fold_res (fun (st : omap claim * N) c =>
      let '(claims, total) := st in
      total <- uint_add total (cl_amount c) ;;
      Ok (odel claims (cl_id c), total)) (cm, t) l =
  (if t + lsum cl_amount l <? M128
   then Ok (fold_left (fun m c => odel m (cl_id c)) l cm, t + lsum cl_amount l)
   else match l with [] => Ok (cm, t) | _ => Err EPanic end).
Proof.
  induction l as [|c l IH]; intros cm t.
  - cbn [fold_res fold_left lsum fold_right]. rewrite N.add_0_r. destruct (t <? M128); reflexivity.
  - cbn [fold_res fold_left]. rewrite lsum_cons. unfold uint_add at 1.
    destruct (t + cl_amount c <? M128) eqn:E1; cbn [bind].
    + rewrite IH. replace (t + (cl_amount c + lsum cl_amount l)) with (t + cl_amount c + lsum cl_amount l) by lia.
      destruct (t + cl_amount c + lsum cl_amount l <? M128) eqn:E2; [reflexivity|].
      destruct l; [|reflexivity]. cbn in E2. rewrite N.add_0_r in E2. congruence.
    + apply N.ltb_ge in E1. destruct (t + (cl_amount c + lsum cl_amount l) <? M128) eqn:E2; [apply N.ltb_lt in E2; lia|reflexivity].
Qed.

(** What a claim does, when it succeeds. *)
Lemma claim_ok s e u user s' outs :
  keyed s -> claim_stake s e u user = Ok (s', outs) ->
  (user = None \/ user = Some u) /\
  s' = st_with_claims s (st_next_claim s) (ofilter (fun _ c => negb (due e u c)) (st_claims s)) /\
  outs = [OPay (st_asset s) u (lsum cl_amount (filter (due e u) (ovals (st_claims s))))] /\
  all_claims s' + paid_out outs = all_claims s.
Proof.
  intros Hk H. unfold claim_stake in H. apply bind_ok in H. destruct H as [v [Hv H]].
  apply bind_ok in H. destruct H as [? [Hg H]]. apply guard_ok in Hg. apply N.eqb_eq in Hg. subst v.
  apply bind_ok in H. destruct H as [[cm t] [Hl H]]. inversion H; clear H; subst s' outs.
  rewrite claim_loop in Hl. rewrite releasable_due in Hl. cbn [N.add] in Hl.
  set (L := filter (due e u) (ovals (st_claims s))) in *.
  assert (E : cm = fold_left (fun m c => odel m (cl_id c)) L (st_claims s) /\ t = lsum cl_amount L).
  { destruct (lsum cl_amount L <? M128); [inversion Hl; auto|]. destruct L; [inversion Hl; auto|discriminate]. }
  destruct E as [-> ->]. unfold L. rewrite del_matching by (intros k c Hc; apply Hk; assumption).
  split. { destruct user as [u'|]; [right|left; reflexivity]. apply addr_validate_ok in Hv. destruct Hv. subst. reflexivity. }
  split; [reflexivity|]. split; [reflexivity|].
  unfold all_claims, paid_out. cbn [st_with_claims st_claims lsum fold_right]. rewrite N.add_0_r. apply osum_split.
Qed.

(** * NFTs *)

Lemma stake_nft_ok o s e t u s' outs :
  stake_nft o s e t u = Ok (s', outs) ->
  let m := ns_members s in let w := member_weight m u in
  let m' := save_total_weight (set_member_weight m u (w + 1)) e (total_weight m + 1) in
  s' = ns_with_members (ns_with_stakes s (oset (ns_stakes s) t u)) m' /\ outs = report m' [mk_change u w (w + 1)] /\
  u <> 0 /\ mo_restricted o u = Ok false /\ oget (ns_stakes s) t = None /\ w + 1 < M128.
Proof.
  unfold stake_nft, increment_member_weight, increment_total_weight. intros H. allb.
  split; [reflexivity|]. split; [reflexivity|]. split; [assumption|]. split; [assumption|].
  split; [|assumption]. unfold ohas in *. destruct (oget (ns_stakes s) t); [discriminate|reflexivity].
Qed.

Lemma unstake_nft_ok s e u ts s' outs :
  unstake_nft s e u ts = Ok (s', outs) ->
  let m := ns_members s in let w := member_weight m u in let n := N.of_nat (length ts) in
  let m' := save_total_weight (set_member_weight m u (w - n)) e (total_weight m - n) in
  exists r stakes, fold_res (unstake_nft_one u) (ns_stakes s) ts = Ok stakes /\
  calculate_release_at e (ns_period s) = Ok r /\
  s' = ns_with_claims (ns_with_members (ns_with_stakes s stakes) m') (ns_next_claim s + 1)
         (oset (ns_claims s) (ns_next_claim s) (mk_nft_claim (ns_next_claim s) u ts r)) /\
  outs = report m' [mk_change u w (w - n)] /\
  n <= w /\ n <= total_weight m /\ ns_next_claim s + 1 < M64.
Proof.
  unfold unstake_nft, decrement_member_weight, decrement_total_weight, add_nft_claim. intros H. allb.
  eexists _, _. split; [eassumption|]. split; [eassumption|]. split; [reflexivity|]. split; [reflexivity|].
  split; [lia|]. split; assumption.
Qed.

(** Taking tokens out of the stakes one by one: they were distinct, all the user's, and only they go. *)
Lemma unstake_nft_loop u ts : forall stakes stakes',
  fold_res (unstake_nft_one u) stakes ts = Ok stakes' ->
  NoDup ts /\ (forall t, In t ts -> oget stakes t = Some u) /\
  (forall t, oget stakes' t = if existsb (N.eqb t) ts then None else oget stakes t).
Proof.
  induction ts as [|t ts IH]; intros st st' H; cbn [fold_res] in H.
  - inversion H; subst. split; [constructor|]. split; [intros t []|]. reflexivity.
  - apply bind_ok in H. destruct H as [st1 [H1 H]]. unfold unstake_nft_one in H1. allb. apply N.eqb_eq in Hb0. subst.
    apply IH in H. destruct H as [Hn [Ho He]].
    split. { constructor; [|assumption]. intros Hi. apply Ho in Hi. rewrite oget_odel_eq in Hi. discriminate. }
    split. { intros t' [<-|Hi]; [assumption|]. apply Ho in Hi. rewrite oget_odel in Hi. destruct (t =? t'); [discriminate|assumption]. }
    intros t'. rewrite He, oget_odel. cbn [existsb]. rewrite (N.eqb_sym t' t). destruct (t =? t'); cbn; [destruct (existsb _ ts); reflexivity|reflexivity].
Qed.

Lemma claim_nft_ok s e u user s' outs :
  nkeyed s -> claim_nft s e u user = Ok (s', outs) ->
  (user = None \/ user = Some u) /\
  exists c, ns_contract s = NCw721 c /\
  s' = ns_with_claims s (ns_next_claim s) (ofilter (fun _ c => negb (nft_due e u c)) (ns_claims s)) /\
  outs = map (fun t => OSendNft c u t) (flat_map nc_tokens (filter (nft_due e u) (ovals (ns_claims s)))).
Proof.
  intros Hk H. unfold claim_nft in H. apply bind_ok in H. destruct H as [c [Hc H]].
  apply bind_ok in H. destruct H as [v [Hv H]].
  apply bind_ok in H. destruct H as [? [Hg H]]. apply guard_ok in Hg. apply N.eqb_eq in Hg. subst v.
  inversion H; clear H; subst s' outs. rewrite nft_releasable_due.
  rewrite del_matching by (intros k c' Hc'; apply Hk; assumption).
  split. { destruct user as [u'|]; [right|left; reflexivity]. apply addr_validate_ok in Hv. destruct Hv. subst. reflexivity. }
  exists c. split; [destruct (ns_contract s); [inversion Hc; reflexivity|discriminate]|]. split; reflexivity.
Qed.

(** * Multisig *)

Lemma nodupb_NoDup l : nodupb l = true -> NoDup l.
Proof.
  induction l as [|a t IH]; cbn; intros H; [constructor|]. apply andb_true_iff in H. destruct H as [H1 H2].
  constructor; [|auto]. intros Hi. apply negb_true_iff in H1.
  assert (existsb (N.eqb a) t = true); [|congruence]. apply existsb_exists. exists a. split; [assumption|apply N.eqb_refl].
Qed.

Lemma map_res_id {A} (f : A -> res A) l l' : (forall a b, f a = Ok b -> b = a) -> map_res f l = Ok l' -> l' = l.
Proof.
  intros Hf. revert l'. induction l as [|a t IH]; intros l' H; cbn in H; [inversion H; reflexivity|].
  apply bind_ok in H. destruct H as [b [H1 H]]. apply bind_ok in H. destruct H as [t' [H2 H]]. inversion H; subst.
  rewrite (Hf _ _ H1), (IH _ H2). reflexivity.
Qed.

Lemma dedup_ok l l' : dedup_user_weights l = Ok l' -> l' = l /\ NoDup (map fst l).
Proof.
  unfold dedup_user_weights. intros H. apply bind_ok in H. destruct H as [l1 [H1 H]].
  apply bind_ok in H. destruct H as [? [Hg H]]. apply guard_ok in Hg. inversion H; subst.
  apply map_res_id in H1; [|intros [u w] b Hb; cbn in Hb; allb; reflexivity]. subst.
  split; [reflexivity|]. apply nodupb_NoDup. assumption.
Qed.

Lemma lget_notin {V} (l : list (N * V)) k : ~ In k (map fst l) -> lget l k = None.
Proof.
  induction l as [|[k' v] t IH]; cbn; intros H; [reflexivity|].
  destruct (k =? k') eqn:E; [apply N.eqb_eq in E; subst; exfalso; apply H; left; reflexivity|].
  apply IH. intros Hi. apply H. right. assumption.
Qed.

Lemma update_loop l : forall m total ch m' total' ch',
  NoDup (map fst l) ->
  fold_res update_members_one (m, total, ch) l = Ok (m', total', ch') ->
  exists w more, m' = with_member_weights m w /\ ch' = ch ++ more /\
    osum (fun _ w => w) w + total = osum (fun _ w => w) (m_weights m) + total' /\
    (forall u, replay u (ogetN (m_weights m) u) more = Some (ogetN w u)) /\
    (forall u, oget w u = match lget l u with Some x => Some x | None => oget (m_weights m) u end).
Proof.
  induction l as [|[user a] t IH]; intros m total ch m' total' ch' Hn H; cbn [fold_res] in H.
  - inversion H; subst. exists (m_weights m'), []. rewrite app_nil_r. destruct m'; cbn.
    split; [reflexivity|]. split; [reflexivity|]. split; [lia|]. split; reflexivity.
  - apply bind_ok in H. destruct H as [[[m1 t1] ch1] [H1 H]]. inversion Hn; subst.
    unfold update_members_one in H1. allb. apply IH in H; [|assumption].
    destruct H as [w [more [E1 [E2 [E3 [E4 E5]]]]]].
    unfold set_member_weight, member_weight in *. cbn [with_member_weights m_weights] in *.
    exists w, (mk_change user (ogetN (m_weights m) user) a :: more).
    split; [rewrite E1; reflexivity|]. split; [rewrite E2, <- app_assoc; reflexivity|].
    split. { pose proof (osum_set (m_weights m) user a). lia. }
    split. { intros u. unfold replay. cbn [fold_left wc_user wc_old wc_new].
             pose proof (E4 u) as E4'. rewrite ogetN_oset in E4'. destruct (user =? u) eqn:E.
             - apply N.eqb_eq in E. subst. rewrite N.eqb_refl. exact E4'.
             - exact E4'. }
    intros u. rewrite E5, oget_oset. cbn [lget]. rewrite (N.eqb_sym u user). destruct (user =? u) eqn:E; [|reflexivity].
    apply N.eqb_eq in E. subst. rewrite lget_notin by assumption. reflexivity.
Qed.

Lemma set_loop old l : forall m total ch m' total' ch',
  NoDup (map fst l) -> (forall u, In u (map fst l) -> oget (m_weights m) u = None) ->
  fold_res (set_members_one old) (m, total, ch) l = Ok (m', total', ch') ->
  exists w, m' = with_member_weights m w /\
    ch' = ch ++ map (fun uw => mk_change (fst uw) (ogetN old (fst uw)) (snd uw)) l /\
    osum (fun _ w => w) w + total = osum (fun _ w => w) (m_weights m) + total' /\
    (forall u, oget w u = match lget l u with Some x => Some x | None => oget (m_weights m) u end).
Proof.
  induction l as [|[user a] t IH]; intros m total ch m' total' ch' Hn Hz H; cbn [fold_res] in H.
  - inversion H; subst. exists (m_weights m'). cbn [map]. rewrite app_nil_r. destruct m'; cbn.
    split; [reflexivity|]. split; [reflexivity|]. split; [lia|]. reflexivity.
  - apply bind_ok in H. destruct H as [[[m1 t1] ch1] [H1 H]]. inversion Hn; subst.
    unfold set_members_one in H1. allb. apply IH in H.
    2: assumption.
    2:{ intros u Hu. unfold set_member_weight. cbn. rewrite oget_oset. destruct (user =? u) eqn:E.
        - apply N.eqb_eq in E. subst. contradiction.
        - apply Hz. right. assumption. }
    destruct H as [w [E1 [E2 [E3 E4]]]].
    unfold set_member_weight in *. cbn [with_member_weights m_weights] in *.
    exists w. split; [rewrite E1; reflexivity|]. split; [rewrite E2, <- app_assoc; reflexivity|].
    split. { pose proof (osum_set (m_weights m) user a) as Ho. unfold ogetN in Ho. rewrite (Hz user) in Ho by (left; reflexivity). cbn in Ho. lia. }
    intros u. rewrite E4, oget_oset. cbn [lget]. rewrite (N.eqb_sym u user). destruct (user =? u) eqn:E; [|reflexivity].
    apply N.eqb_eq in E. subst. rewrite lget_notin by assumption. reflexivity.
Qed.

(** * Effect of a call on weights and totals *)

Inductive effect (e : env) (m m' : members) (outs : list member_out) : Prop :=
| Eff_none :
    m_weights m' = m_weights m -> m_total_height m' = m_total_height m -> m_total_seconds m' = m_total_seconds m ->
    m_enterprise m' = m_enterprise m -> (forall h, told h outs = []) -> effect e m m' outs
| Eff_change w t ch :
    m' = save_total_weight (with_member_weights m w) e t -> (sum_ok m -> t = osum (fun _ w => w) w) ->
    outs = report m' ch -> effect e m m' outs.

Definition keys_ok (st : member_state) : Prop :=
  match st with MToken s | MDenom s => keyed s | MNft s => nkeyed s | MMultisig _ => True end.

Definition inv (st : member_state) : Prop := sum_ok (members_of st) /\ keys_ok st.

Lemma eff_refl e m outs : (forall h, told h outs = []) -> effect e m m outs.
Proof. intros H. apply Eff_none; auto. Qed.

Lemma add_hook_effect o m sender h m' e : add_hook o m sender h = Ok m' -> effect e m m' [].
Proof. unfold add_hook. intros H. allb. apply Eff_none; reflexivity. Qed.
Lemma remove_hook_effect o m sender h m' e : remove_hook o m sender h = Ok m' -> effect e m m' [].
Proof. unfold remove_hook. intros H. allb. apply Eff_none; reflexivity. Qed.

Lemma osum_plus m u x a :
  sum_ok m -> x = member_weight m u + a -> total_weight m + a = osum (fun _ w => w) (oset (m_weights m) u x).
Proof. intros [H _] ->. pose proof (osum_set (m_weights m) u (member_weight m u + a)). unfold member_weight in *. lia. Qed.
Lemma osum_minus m u x a :
  sum_ok m -> x = member_weight m u - a -> a <= member_weight m u ->
  total_weight m - a = osum (fun _ w => w) (oset (m_weights m) u x).
Proof.
  intros Hs -> Ha. pose proof (weight_le_total m u Hs). destruct Hs as [H0 _].
  pose proof (osum_set (m_weights m) u (member_weight m u - a)). unfold member_weight in *. lia.
Qed.

Lemma add_stake_effect s e u a s' outs :
  add_stake s e u a = Ok (s', outs) -> effect e (st_members s) (st_members s') outs.
Proof.
  intros H. apply add_stake_ok in H. destruct H as [-> [-> [H1 H2]]]. cbn [st_members st_with_members].
  eapply Eff_change; [reflexivity| |reflexivity]. intros Hs. apply osum_plus; [assumption|reflexivity].
Qed.

Lemma keyed_next s m id u a r :
  keyed s -> id = st_next_claim s ->
  keyed (st_with_claims (st_with_members s m) (id + 1) (oset (st_claims s) id (mk_claim id u a r))).
Proof.
  intros Hk -> i c. cbn. rewrite oget_oset. destruct (st_next_claim s =? i) eqn:E.
  - apply N.eqb_eq in E. intros H. inversion H; subst. cbn. lia.
  - intros H. apply Hk in H. lia.
Qed.

Lemma stake_execute_effect o s e sender msg s' outs :
  keyed s -> stake_execute o s e sender msg = Ok (s', outs) ->
  effect e (st_members s) (st_members s') outs /\ keyed s'.
Proof.
  intros Hk H. destruct msg; cbn [stake_execute] in H.
  - apply unstake_ok in H. destruct H as [r [Hr [-> [-> [H1 [H2 H3]]]]]]. split.
    + eapply Eff_change; [reflexivity| |reflexivity]. intros Hs. apply osum_minus; [assumption|reflexivity|assumption].
    + apply keyed_next; auto.
  - pose proof H as H'. apply claim_ok in H; [|assumption]. destruct H as [_ [-> [-> _]]]. split.
    + apply eff_refl. reflexivity.
    + intros id c. cbn. rewrite oget_ofilter. intros Hc.
      destruct (oget (st_claims s) id) as [c'|] eqn:E; [|discriminate]. destruct (negb _); [|discriminate].
      inversion Hc; subst. apply Hk. assumption.
  - allb. unfold update_period in *. allb. destruct p; (split; [apply eff_refl; reflexivity|exact Hk]).
  - allb. split; [eapply add_hook_effect; eassumption|exact Hk].
  - allb. split; [eapply remove_hook_effect; eassumption|exact Hk].
Qed.

Lemma add_claims_ok s amount l s' :
  keyed s -> add_claims s amount l = Ok s' ->
  exists n cl, s' = st_with_claims s n cl /\ st_next_claim s <= n /\ keyed s' /\
    all_claims s' = all_claims s + amount /\
    (forall id, id < st_next_claim s -> oget cl id = oget (st_claims s) id) /\
    (forall id c, oget cl id = Some c -> st_next_claim s <= id -> In (cl_user c, cl_amount c, cl_release c) l).
Proof.
  intros Hk H. unfold add_claims in H. apply bind_ok in H. destruct H as [[s1 t] [Hl H]]. allb. apply N.eqb_eq in Hb. subst.
  apply add_claims_loop in Hl; [|intros id c Hc; apply Hk in Hc; tauto].
  destruct Hl as [n [cl [E1 [E2 [E3 [E4 E5]]]]]]. exists n, cl. split; [assumption|]. split; [assumption|].
  split. { subst s'. intros id c. cbn. intros Hc. pose proof (E5 _ _ Hc) as [F1 F2]. split; [|assumption].
           destruct (N.lt_ge_cases id (st_next_claim s)) as [Hlt|Hge].
           - rewrite E4 in Hc by assumption. apply Hk in Hc. tauto.
           - apply F2. assumption. }
  split. { subst s'. unfold all_claims. cbn. lia. }
  split; [assumption|]. intros id c Hc Hge. pose proof (E5 _ _ Hc) as [_ F]. apply F. assumption.
Qed.

Lemma token_execute_effect o s e sender msg s' outs :
  keyed s -> token_execute o s e sender msg = Ok (s', outs) ->
  effect e (st_members s) (st_members s') outs /\ keyed s'.
Proof.
  intros Hk H. destruct msg as [amount h|m]; cbn [token_execute] in H; [|eapply stake_execute_effect; eassumption].
  unfold token_receive in H. apply bind_ok in H. destruct H as [? [_ H]]. destruct h.
  - apply stake_token_ok in H. destruct H as [_ [_ H]]. split; [eapply add_stake_effect; eassumption|].
    apply add_stake_ok in H. destruct H as [-> _]. exact Hk.
  - apply add_stakes_ok in H. destruct H as [m [ch [Hl [-> [-> H2]]]]]. split; [|exact Hk].
    apply add_stakes_loop in Hl. destruct Hl as [w [more [-> [-> [Hs _]]]]].
    eapply Eff_change; [reflexivity| |reflexivity]. intros [Ht _]. unfold total_weight in *. cbn in *. lia.
  - allb. apply add_claims_ok in Hb; [|assumption]. destruct Hb as [n [cl [-> [_ [Hk' _]]]]].
    split; [apply eff_refl; reflexivity|assumption].
  - discriminate.
Qed.

Lemma denom_execute_effect o s e sender coins msg s' outs :
  keyed s -> denom_execute o s e sender coins msg = Ok (s', outs) ->
  effect e (st_members s) (st_members s') outs /\ keyed s'.
Proof.
  intros Hk H. destruct msg as [user|m]; cbn [denom_execute] in H; [|eapply stake_execute_effect; eassumption].
  apply stake_denom_ok in H. destruct H as [d [a [-> [_ [_ [_ H]]]]]]. split; [eapply add_stake_effect; eassumption|].
  apply add_stake_ok in H. destruct H as [-> _]. exact Hk.
Qed.

(** The state a receive call is handled in: the collection resolved. *)
Definition resolved (s : nft_staking) (o : member_oracle) (c : addr) : nft_staking :=
  match ns_contract s with NCw721 _ => s | NIcs721 _ _ => ns_with_contract s (NCw721 c) end.

Lemma receive_nft_ok o s e sender t h s' outs :
  receive_nft o s e sender t h = Ok (s', outs) ->
  collection_of s o = Some sender /\
  match h with
  | NStake u => stake_nft o (resolved s o sender) e t u = Ok (s', outs)
  | NAddClaim u r => u <> 0 /\ add_nft_claim (resolved s o sender) u [t] r = Ok s' /\ outs = []
  | NUnknown => False
  end.
Proof.
  unfold receive_nft, collection_of, resolved. intros H. apply bind_ok in H. destruct H as [[s1 c] [H1 H]].
  apply bind_ok in H. destruct H as [? [Hg H]]. apply guard_ok in Hg. apply N.eqb_eq in Hg. subst c.
  assert (E : (match ns_contract s with NCw721 a => Some a
               | NIcs721 _ _ => match mo_ics721 o with Ok r => r | Err _ => None end end = Some sender) /\
              s1 = match ns_contract s with NCw721 _ => s | NIcs721 _ _ => ns_with_contract s (NCw721 sender) end).
  { destruct (ns_contract s); allb; split; auto. rewrite Hb. exact Hb0. }
  destruct E as [E ->]. split; [exact E|]. destruct h; [exact H| |discriminate].
  allb. auto.
Qed.

Lemma resolved_fields s o c :
  ns_members (resolved s o c) = ns_members s /\ ns_stakes (resolved s o c) = ns_stakes s /\
  ns_claims (resolved s o c) = ns_claims s /\ ns_next_claim (resolved s o c) = ns_next_claim s /\
  ns_period (resolved s o c) = ns_period s.
Proof. unfold resolved. destruct (ns_contract s); auto. Qed.

Lemma nft_execute_effect o s e sender msg s' outs :
  nkeyed s -> nft_execute o s e sender msg = Ok (s', outs) ->
  effect e (ns_members s) (ns_members s') outs /\ nkeyed s'.
Proof.
  intros Hk H. destruct msg; cbn [nft_execute] in H.
  - apply receive_nft_ok in H. destruct H as [_ H]. pose proof (resolved_fields s o sender) as [F1 [F2 [F3 [F4 F5]]]].
    destruct h as [u|u r|]; [| |contradiction].
    + apply stake_nft_ok in H. destruct H as [-> [-> _]]. cbn [ns_members ns_with_members]. rewrite F1. split.
      * eapply Eff_change; [reflexivity| |reflexivity]. intros Hs. apply osum_plus; [assumption|reflexivity].
      * unfold nkeyed. cbn. rewrite F3, F4. exact Hk.
    + destruct H as [_ [H ->]]. unfold add_nft_claim in H. allb. cbn [ns_members ns_with_claims]. rewrite F1. split.
      * apply eff_refl. reflexivity.
      * intros i c. cbn. rewrite F3, F4, oget_oset. destruct (ns_next_claim s =? i) eqn:E.
        -- apply N.eqb_eq in E. intros Hc. inversion Hc; subst. cbn. lia.
        -- intros Hc. apply Hk in Hc. lia.
  - apply unstake_nft_ok in H. destruct H as [r [st [_ [Hr [-> [-> [H1 [H2 H3]]]]]]]]. split.
    + eapply Eff_change; [reflexivity| |reflexivity]. intros Hs. apply osum_minus; [assumption|reflexivity|assumption].
    + intros i c. cbn. rewrite oget_oset. destruct (ns_next_claim s =? i) eqn:E.
      * apply N.eqb_eq in E. intros Hc. inversion Hc; subst. cbn. lia.
      * intros Hc. apply Hk in Hc. lia.
  - apply claim_nft_ok in H; [|assumption]. destruct H as [_ [c [_ [-> ->]]]]. split.
    + apply eff_refl. intros h. induction (flat_map nc_tokens _) as [|x l IH]; [reflexivity|exact IH].
    + intros id c'. cbn. rewrite oget_ofilter. intros Hc.
      destruct (oget (ns_claims s) id) as [c''|] eqn:E; [|discriminate]. destruct (negb _); [|discriminate].
      inversion Hc; subst. apply Hk. assumption.
  - allb. unfold nft_update_period in *. allb. destruct p; (split; [apply eff_refl; reflexivity|exact Hk]).
  - allb. split; [eapply add_hook_effect; eassumption|exact Hk].
  - allb. split; [eapply remove_hook_effect; eassumption|exact Hk].
Qed.

Lemma update_members_ok o m e sender l m' outs :
  update_members o m e sender l = Ok (m', outs) ->
  mo_controller o = Ok sender /\ NoDup (map fst l) /\
  exists w t ch, m' = save_total_weight (with_member_weights m w) e t /\ outs = report m' ch /\
    osum (fun _ w => w) w + total_weight m = osum (fun _ w => w) (m_weights m) + t /\
    (forall u, replay u (ogetN (m_weights m) u) ch = Some (ogetN w u)) /\
    (forall u, oget w u = match lget l u with Some x => Some x | None => oget (m_weights m) u end).
Proof.
  unfold update_members. intros H. apply bind_ok in H. destruct H as [? [Hc H]]. apply controller_only_ok in Hc.
  apply bind_ok in H. destruct H as [l' [Hd H]]. apply dedup_ok in Hd. destruct Hd as [-> Hn].
  apply bind_ok in H. destruct H as [[[m1 t] ch] [Hl H]]. inversion H; clear H; subst.
  apply update_loop in Hl; [|assumption]. destruct Hl as [w [more [-> [-> [H1 [H2 H3]]]]]].
  split; [assumption|]. split; [assumption|]. exists w, t, more. auto.
Qed.

Lemma set_members_ok o m e sender l m' outs :
  set_members o m e sender l = Ok (m', outs) ->
  mo_controller o = Ok sender /\ NoDup (map fst l) /\
  exists w, m' = save_total_weight (with_member_weights m w) e (osum (fun _ w => w) w) /\
    outs = report m' (map (fun uw => mk_change (fst uw) (ogetN (m_weights m) (fst uw)) (snd uw)) l) /\
    (forall u, oget w u = lget l u).
Proof.
  unfold set_members. intros H. apply bind_ok in H. destruct H as [? [Hc H]]. apply controller_only_ok in Hc.
  apply bind_ok in H. destruct H as [l' [Hd H]]. apply dedup_ok in Hd. destruct Hd as [-> Hn].
  apply bind_ok in H. destruct H as [[[m1 t] ch] [Hl H]]. inversion H; clear H; subst.
  apply set_loop in Hl; [|assumption|reflexivity]. destruct Hl as [w [-> [-> [H1 H2]]]].
  cbn [with_member_weights m_weights] in *. rewrite osum_empty, N.add_0_r in H1. cbn [N.add] in H1. subst t.
  split; [assumption|]. split; [assumption|]. exists w. split; [reflexivity|]. split; [reflexivity|].
  intros u. rewrite H2, oget_empty. destruct (lget l u); reflexivity.
Qed.

Lemma multisig_execute_effect o m e sender msg m' outs :
  multisig_execute o m e sender msg = Ok (m', outs) -> effect e m m' outs.
Proof.
  intros H. destruct msg; cbn [multisig_execute] in H.
  - apply update_members_ok in H. destruct H as [_ [_ [w [t [ch [-> [-> [H _]]]]]]]].
    eapply Eff_change; [reflexivity| |reflexivity]. intros [Hs _]. lia.
  - apply set_members_ok in H. destruct H as [_ [_ [w [-> [-> _]]]]].
    eapply Eff_change; [reflexivity| |reflexivity]. reflexivity.
  - allb. eapply add_hook_effect; eassumption.
  - allb. eapply remove_hook_effect; eassumption.
Qed.

Lemma accepts_effect st c st' outs :
  keys_ok st -> accepts st c st' outs ->
  effect (mc_env c) (members_of st) (members_of st') outs /\ keys_ok st'.
Proof.
  unfold accepts. intros Hk H. destruct c as [o e sender coins msg]. cbn in *.
  destruct st, msg; cbn in H; try discriminate; apply bind_ok in H; destruct H as [[s' outs'] [H1 H]]; inversion H; subst; cbn.
  - eapply token_execute_effect; eassumption.
  - eapply denom_execute_effect; eassumption.
  - eapply nft_execute_effect; eassumption.
  - split; [eapply multisig_execute_effect; eassumption|exact I].
Qed.

Lemma effect_sum e m m' outs : effect e m m' outs -> sum_ok m -> sum_ok m'.
Proof.
  intros [H1 H2 H3 H4 H5|w t ch -> H ->] Hs.
  - destruct Hs as [A B]. unfold sum_ok, total_weight in *. rewrite H1, H2, H3. split; assumption.
  - split; [|reflexivity]. rewrite total_save. apply H. assumption.
Qed.

Lemma inv_accepts st c st' outs : inv st -> accepts st c st' outs -> inv st'.
Proof.
  intros [H1 H2] Ha. pose proof (accepts_effect _ _ _ _ H2 Ha) as [E K]. split; [|assumption].
  eapply effect_sum; eassumption.
Qed.

Lemma step_cases st c :
  (exists st' outs, accepts st c st' outs /\ member_step st c = (st', outs)) \/ member_step st c = (st, []).
Proof.
  unfold member_step, accepts. destruct (member_execute _ _ _ _ _ _) as [[st' outs]|]; [left; eauto|right; reflexivity].
Qed.

Lemma inv_step st c : inv st -> inv (fst (member_step st c)).
Proof.
  intros H. destruct (step_cases st c) as [[st' [outs [Ha ->]]]| ->]; [|exact H]. eapply inv_accepts; eassumption.
Qed.

Lemma inv_run st cs : inv st -> inv (member_run st cs).
Proof. intros H. unfold member_run. apply fold_left_inv; [|assumption]. intros s a Hs. apply inv_step. assumption. Qed.

(** * Creation *)

Lemma save_hooks_ok hooks : forall m m', save_hooks m hooks = Ok m' -> exists h, m' = with_hooks m h.
Proof.
  unfold save_hooks. induction hooks as [|a t IH]; intros m m' H; cbn in H.
  - inversion H; subst. exists (m_hooks m'). destruct m'; reflexivity.
  - apply bind_ok in H. destruct H as [m1 [H1 H]]. allb. apply IH in H. destruct H as [h ->]. exists h. reflexivity.
Qed.

(** The totals right after creation. *)
Definition fresh_totals (e : env) (bh bs : list (N * N)) (m : members) : Prop :=
  exists t, let save s c := snap_save s (snd c) (fst c) in
    m_total_height m = snap_save (fold_left save bh snap_empty) t (e_height e) /\
    m_total_seconds m = snap_save (fold_left save bs snap_empty) t (ts_seconds (e_time e)).

Lemma init_loop l : forall m total m' total',
  fold_res (fun mt uw =>
                let '(m, total) := mt in
                t1 <- uint_sub total (member_weight m (fst uw)) ;;
                t2 <- uint_add t1 (snd uw) ;;
                Ok (set_member_weight m (fst uw) (snd uw), t2)) (m, total) l = Ok (m', total') ->
  exists w, m' = with_member_weights m w /\
    osum (fun _ w => w) w + total = osum (fun _ w => w) (m_weights m) + total'.
Proof.
  induction l as [|[u a] t IH]; intros m total m' total' H; cbn [fold_res] in H.
  - inversion H; subst. exists (m_weights m'). split; [destruct m'; reflexivity|lia].
  - apply bind_ok in H. destruct H as [[m1 t1] [H1 H]]. allb. apply IH in H. destruct H as [w [-> Hw]].
    exists w. split; [reflexivity|]. unfold set_member_weight, member_weight in *. cbn [with_member_weights m_weights fst snd] in *.
    pose proof (osum_set (m_weights m) u a). lia.
Qed.

Lemma init_inv e i st0 :
  member_instantiate e i = Ok st0 ->
  inv st0 /\ fresh_totals e (checkpoints_by_height i) (checkpoints_by_seconds i) (members_of st0).
Proof.
  intros H. destruct i; cbn in H; apply bind_ok in H; destruct H as [s [H1 H]]; inversion H; subst; clear H; cbn [checkpoints_by_height checkpoints_by_seconds].
  - unfold token_instantiate, members_new in H1. allb.
    match goal with H : save_hooks _ _ = Ok _ |- _ => apply save_hooks_ok in H; destruct H as [h ->] end.
    split; [split|]; [split; reflexivity|intros id c Hc; cbn in Hc; discriminate|]. exists 0. split; reflexivity.
  - unfold denom_instantiate, members_new in H1. allb.
    match goal with H : save_hooks _ _ = Ok _ |- _ => apply save_hooks_ok in H; destruct H as [h ->] end.
    split; [split|]; [split; reflexivity|intros id c Hc; cbn in Hc; discriminate|]. exists 0. split; reflexivity.
  - unfold nft_instantiate, members_new in H1. allb.
    match goal with H : save_hooks _ _ = Ok _ |- _ => apply save_hooks_ok in H; destruct H as [h ->] end.
    split; [split|]; [split; reflexivity|intros id c' Hc; cbn in Hc; discriminate|]. exists 0. split; reflexivity.
  - unfold multisig_instantiate, members_new in H1. allb. apply save_hooks_ok in H1. destruct H1 as [h ->].
    destruct initial as [l|]; allb.
    + match goal with H : fold_res _ _ _ = Ok _ |- _ => apply init_loop in H; destruct H as [w [-> Hw]] end.
      cbn [save_checkpoints m_weights] in Hw. rewrite osum_empty in Hw.
      split; [split; [split; [|reflexivity]|exact I]|]. { unfold total_weight. cbn. lia. } eexists. split; reflexivity.
    + split; [split; [split; reflexivity|exact I]|]. exists 0. split; reflexivity.
Qed.

Lemma reachable_inv st : member_reachable st -> inv st.
Proof. intros [e [i [st0 [cs [H ->]]]]]. apply init_inv in H. apply inv_run. tauto. Qed.
