(** Proofs about the funds distributor. *)
From Verif Require Import Base OMap OMapLemmas Assets FundsModel FundsSpec.

(** [lia] after hiding quotients. *)
Ltac qlia :=
  repeat match goal with
  | |- context [?x / ?y] => let q := fresh "q" in set (q := x / y) in *; clearbody q
  | _ : context [?x / ?y] |- _ => let q := fresh "q" in set (q := x / y) in *; clearbody q
  end; lia.

Lemma DEC_pos : 0 < DEC. Proof. reflexivity. Qed.
Global Opaque DEC.

(** ** One side (native or cw20) *)

Definition idx (r : rewards) (u a : N) : N := match get_dist r u a with Some d => d_index d | None => 0 end.
Definition pend (r : rewards) (u a : N) : N := match get_dist r u a with Some d => d_pending d | None => 0 end.
Definition glob (r : rewards) (a : N) : N := ogetN (r_global r) a.
Definition amt (r : rewards) (w u a : N) : N := w * (glob r a - idx r u a) / DEC + pend r u a.
Definition atoms (r : rewards) (w u a : N) : N := w * (glob r a - idx r u a) + DEC * pend r u a.

Definition side_ok (r : rewards) (eff : omap N) : Prop :=
  (forall u a, idx r u a <= glob r a) /\ (forall u a d, get_dist r u a = Some d -> ohas eff u = true) /\
  (forall u a, glob r a = 0 -> pend r u a = 0).

Definition potential (r : rewards) (eff : omap N) (a : N) : N := osum (fun u w => atoms r w u a) eff.

Lemma get_dist_set r u a d u' a' :
  get_dist (set_dist r u a d) u' a' = if (u' =? u) && (a' =? a) then Some d else get_dist r u' a'.
Proof.
  unfold get_dist, set_dist, user_dists; cbn [r_dists]. rewrite oget_oset.
  rewrite (N.eqb_sym u u'). destruct (u' =? u) eqn:E; cbn [andb dflt]; [|reflexivity].
  replace u' with u by lia. rewrite oget_oset, (N.eqb_sym a a'). destruct (a' =? a); reflexivity.
Qed.

Lemma user_reward_ok r u a w g x :
  g = glob r a -> user_reward g (get_dist r u a) w = Ok x -> x = amt r w u a /\ idx r u a <= glob r a /\ x < M128.
Proof.
  intros -> H. unfold user_reward, new_user_reward, amt, idx, pend in *.
  destruct (get_dist r u a) as [d|]; binv H; binv Hb; clean; repeat split; lia.
Qed.

Lemma user_reward_defined r u a w g :
  g = glob r a -> idx r u a <= glob r a -> amt r w u a < M128 ->
  user_reward g (get_dist r u a) w = Ok (amt r w u a).
Proof.
  intros -> Hi Hm. unfold user_reward, new_user_reward, amt, idx, pend in *.
  destruct (get_dist r u a) as [d|]; unfold uint_csub, uint_cadd.
  - replace (d_index d <=? glob r a) with true by lia. cbn [bind].
    set (q := w * _ / _) in *. replace (q <? M128) with true by lia. cbn [guard bind].
    replace (q + d_pending d <? M128) with true by lia. reflexivity.
  - replace (0 <=? glob r a) with true by lia. cbn [bind].
    set (q := w * _ / _) in *. replace (q <? M128) with true by lia. cbn [guard bind].
    replace (q + 0 <? M128) with true by lia. reflexivity.
Qed.

Lemma idx_dist r r' u a : get_dist r' u a = get_dist r u a -> idx r' u a = idx r u a /\ pend r' u a = pend r u a.
Proof. unfold idx, pend. intros ->. auto. Qed.

(** [r'] is [r] with every reward of user [u] (at weight [w]) moved to pending. *)
Definition settled (r : rewards) (u w : N) (r' : rewards) : Prop :=
  r_global r' = r_global r /\
  (forall u' a, u' <> u -> get_dist r' u' a = get_dist r u' a) /\
  (forall a, idx r' u a = glob r a /\ pend r' u a = amt r w u a).

Lemma settle_fold u w l : NoDup (map fst l) -> forall r r',
  (forall a g, In (a, g) l -> glob r a = g) ->
  fold_res (settle_one u w) r l = Ok r' ->
  r_global r' = r_global r /\
  (forall u' a, u' <> u -> get_dist r' u' a = get_dist r u' a) /\
  (forall a, ~ In a (map fst l) -> get_dist r' u a = get_dist r u a) /\
  (forall a g, In (a, g) l -> get_dist r' u a = Some (mk_distribution g (amt r w u a))).
Proof.
  induction l as [|[a g] t IH]; intros Hnd r r' Hg H; cbn [fold_res] in H.
  - inversion H; subst. repeat split; auto. intros a g [].
  - inversion Hnd as [|? ? Hni Hnd']; subst. apply bind_ok in H. destruct H as [r1 [H1 H]].
    unfold settle_one in H1. bind_inv H1. inversion H1; subst r1; clear H1.
    apply (user_reward_ok r u a w g) in Hb; [|symmetry; apply Hg; left; reflexivity]. destruct Hb as (Hx & _ & _).
    apply IH in H; [|exact Hnd'|intros a' g' Hin; apply Hg; right; exact Hin].
    destruct H as (H1 & H2 & H3 & H4). split; [exact H1|]. split; [|split].
    + intros u' a' Hu. rewrite H2 by exact Hu. rewrite get_dist_set. replace (u' =? u) with false by lia. reflexivity.
    + intros a' Hni'. cbn [map fst In] in Hni'. rewrite H3 by tauto. rewrite get_dist_set.
      replace (a' =? a) with false by (destruct (a' =? a) eqn:E; [|reflexivity]; exfalso; apply Hni'; left; lia).
      rewrite Bool.andb_false_r. reflexivity.
    + intros a' g' [E|Hin].
      * inversion E; subst. rewrite H3 by exact Hni. rewrite get_dist_set, !N.eqb_refl. reflexivity.
      * rewrite (H4 a' g' Hin). do 2 f_equal. unfold amt, idx, pend, glob. cbn [r_global set_dist].
        rewrite get_dist_set. replace (a' =? a) with false; [rewrite Bool.andb_false_r; reflexivity|].
        symmetry. apply N.eqb_neq. intros ->. apply Hni. change a with (fst (a, g')). apply in_map. exact Hin.
Qed.

Lemma settle_settled r u w r' eff : side_ok r eff -> settle r u w = Ok r' -> settled r u w r'.
Proof.
  intros (Hi & _ & _) H. unfold settle in H. apply settle_fold in H.
  - destruct H as (H1 & H2 & H3 & H4). split; [exact H1|]. split; [exact H2|]. intros a.
    destruct (oget (r_global r) a) as [g|] eqn:E.
    + assert (Hin := proj1 (oget_In _ _ _) E). specialize (H4 a g Hin). unfold idx, pend. rewrite H4.
      cbn [d_index d_pending]. split; [unfold glob, ogetN; rewrite E; reflexivity|reflexivity].
    + assert (Hni : ~ In a (map fst (elems (r_global r)))).
      { intros Hin. apply okeys_In in Hin. destruct Hin as [v Hv]. congruence. }
      specialize (H3 a Hni). specialize (Hi u a).
      assert (Hz : glob r a = 0) by (unfold glob, ogetN; rewrite E; reflexivity).
      destruct (idx_dist r r' u a H3) as [Hix Hpe]. assert (Hi0 : idx r u a = 0) by lia.
      unfold amt. rewrite Hz, Hi0, Hix, Hpe, N.sub_diag, N.mul_0_r, N.div_0_l by (pose proof DEC_pos; lia). lia.
  - apply okeys_NoDup.
  - intros a g Hin. apply oget_In in Hin. unfold glob, ogetN. rewrite Hin. reflexivity.
Qed.

Lemma settle_defined r u w :
  (forall a, idx r u a <= glob r a) -> (forall a, amt r w u a < M128) -> exists r', settle r u w = Ok r'.
Proof.
  intros Hi Hm. unfold settle.
  assert (Hgen : forall l r1, NoDup (map fst l) -> (forall a g, In (a, g) l -> glob r1 a = g) ->
            (forall a, In a (map fst l) -> idx r1 u a <= glob r1 a /\ amt r1 w u a < M128) ->
            exists r', fold_res (settle_one u w) r1 l = Ok r').
  { induction l as [|[a g] t IH]; intros r1 Hnd Hg Hok; cbn [fold_res]; [eauto|].
    inversion Hnd as [|? ? Hni Hnd']; subst.
    destruct (Hok a (or_introl eq_refl)) as [Hia Hma]. unfold settle_one at 1.
    rewrite (user_reward_defined r1 u a w g) by (try assumption; symmetry; apply Hg; left; reflexivity). cbn [bind].
    apply IH; [exact Hnd'|intros a' g' Hin; apply Hg; right; exact Hin|].
    intros a' Hin. destruct (Hok a' (or_intror Hin)) as [Hia' Hma']. unfold amt, idx, pend, glob in *. cbn [r_global set_dist].
    rewrite get_dist_set. replace (a' =? a) with false; [rewrite Bool.andb_false_r; auto|].
    symmetry. apply N.eqb_neq. intros ->. contradiction. }
  apply Hgen; [apply okeys_NoDup| |auto].
  intros a g Hin. apply oget_In in Hin. unfold glob, ogetN. rewrite Hin. reflexivity.
Qed.

Lemma init_fold u l : NoDup (map fst l) -> forall r,
  (forall a, In a (map fst l) -> get_dist r u a = None) ->
  let r' := fold_left (init_one u) l r in
  r_global r' = r_global r /\
  (forall u' a, u' <> u -> get_dist r' u' a = get_dist r u' a) /\
  (forall a, ~ In a (map fst l) -> get_dist r' u a = get_dist r u a) /\
  (forall a g, In (a, g) l -> get_dist r' u a = Some (mk_distribution g 0)).
Proof.
  induction l as [|[a g] t IH]; intros Hnd r Hn; cbn [fold_left].
  - repeat split; auto. intros a g [].
  - inversion Hnd as [|? ? Hni Hnd']; subst.
    assert (Hinit : init_one u r (a, g) = set_dist r u a (mk_distribution g 0)).
    { unfold init_one. rewrite (Hn a (or_introl eq_refl)). reflexivity. }
    rewrite Hinit. destruct (IH Hnd' (set_dist r u a (mk_distribution g 0))) as (H1 & H2 & H3 & H4).
    { intros a' Hin. rewrite get_dist_set. replace (a' =? a) with false; [rewrite Bool.andb_false_r; apply Hn; right; exact Hin|].
      symmetry. apply N.eqb_neq. intros ->. contradiction. }
    split; [exact H1|]. split; [|split].
    + intros u' a' Hu. rewrite H2 by exact Hu. rewrite get_dist_set. replace (u' =? u) with false by lia. reflexivity.
    + intros a' Hni'. cbn [map fst In] in Hni'. rewrite H3 by tauto. rewrite get_dist_set.
      replace (a' =? a) with false by (destruct (a' =? a) eqn:E; [|reflexivity]; exfalso; apply Hni'; left; lia).
      rewrite Bool.andb_false_r. reflexivity.
    + intros a' g' [E|Hin].
      * inversion E; subst. rewrite H3 by exact Hni. rewrite get_dist_set, !N.eqb_refl. reflexivity.
      * apply H4. exact Hin.
Qed.

Lemma init_settled r u eff : side_ok r eff -> oget eff u = None -> settled r u 0 (init_user r u).
Proof.
  intros (Hi & Hd & Hz0) Hu. assert (Hn : forall a, get_dist r u a = None).
  { intros a. destruct (get_dist r u a) as [d|] eqn:E; [|reflexivity]. apply Hd in E.
    unfold ohas in E. rewrite Hu in E. discriminate. }
  destruct (init_fold u (elems (r_global r)) (okeys_NoDup _) r (fun a _ => Hn a)) as (H1 & H2 & H3 & H4).
  split; [exact H1|]. split; [exact H2|]. intros a. unfold amt. rewrite N.mul_0_l, N.div_0_l by (pose proof DEC_pos; lia).
  unfold idx, pend. rewrite (Hn a). unfold init_user.
  destruct (oget (r_global r) a) as [g|] eqn:E.
  - rewrite (H4 a g) by (apply oget_In; exact E). cbn [d_index d_pending]. unfold glob, ogetN. rewrite E. auto.
  - rewrite H3; [|intros Hin; apply okeys_In in Hin; destruct Hin as [v Hv]; congruence].
    rewrite (Hn a). unfold glob, ogetN. rewrite E. auto.
Qed.

Lemma amt_idx_glob r w u a : idx r u a = glob r a -> amt r w u a = pend r u a.
Proof.
  intros H. unfold amt. rewrite H, N.sub_diag, N.mul_0_r, N.div_0_l by (pose proof DEC_pos; lia). lia.
Qed.

Lemma glob_eq r r' a : r_global r' = r_global r -> glob r' a = glob r a.
Proof. unfold glob. intros ->. reflexivity. Qed.

Lemma settled_amt_same r u w r' : settled r u w r' -> forall w' a, amt r' w' u a = amt r w u a.
Proof.
  intros (Hg & Ho & Hu) w' a. destruct (Hu a) as [H1 H2]. rewrite amt_idx_glob; [exact H2|].
  rewrite H1. symmetry. apply glob_eq. exact Hg.
Qed.

Lemma settled_amt_other r u w r' : settled r u w r' -> forall w' u' a, u' <> u -> amt r' w' u' a = amt r w' u' a.
Proof.
  intros (Hg & Ho & Hu) w' u' a Hne. destruct (idx_dist r r' u' a (Ho u' a Hne)) as [H1 H2].
  unfold amt. rewrite H1, H2, (glob_eq r r' a Hg). reflexivity.
Qed.

Lemma settled_side_ok r u w r' eff e : side_ok r eff -> settled r u w r' -> side_ok r' (oset eff u e).
Proof.
  intros (Hi & Hd & Hz0) (Hg & Ho & Hu). split; [|split].
  - intros u' a. rewrite (glob_eq r r' a Hg). destruct (N.eq_dec u' u) as [->|Hne].
    + destruct (Hu a) as [-> _]. lia.
    + destruct (idx_dist r r' u' a (Ho u' a Hne)) as [-> _]. apply Hi.
  - intros u' a d H. unfold ohas. rewrite oget_oset. destruct (u =? u') eqn:E; [reflexivity|].
    apply (Hd u' a d). rewrite <- (Ho u' a) by lia. exact H.
  - intros u' a H. rewrite (glob_eq r r' a Hg) in H. destruct (N.eq_dec u' u) as [->|Hne].
    + destruct (Hu a) as [_ ->]. unfold amt. rewrite H, (Hz0 u a H), N.sub_0_l, N.mul_0_r, N.div_0_l by (pose proof DEC_pos; lia). lia.
    + destruct (idx_dist r r' u' a (Ho u' a Hne)) as [_ ->]. apply Hz0. exact H.
Qed.

Lemma settled_potential r u r' eff e a :
  side_ok r eff -> settled r u (ogetN eff u) r' -> potential r' (oset eff u e) a <= potential r eff a.
Proof.
  intros (Hi & Hd & Hz0) Hs. assert (Hs' := Hs). destruct Hs' as (Hg & Ho & Hu).
  pose proof (osum_change (fun u0 w => atoms r w u0 a) (fun u0 w => atoms r' w u0 a) eff u e) as H.
  assert (Hpre : forall k' v', k' <> u -> atoms r' v' k' a = atoms r v' k' a).
  { intros k' v' Hne. destruct (idx_dist r r' k' a (Ho k' a Hne)) as [H1 H2]. unfold atoms.
    rewrite H1, H2, (glob_eq r r' a Hg). reflexivity. }
  specialize (H Hpre). unfold potential.
  assert (Ha : atoms r' e u a <= oval (fun u0 w => atoms r w u0 a) eff u).
  { destruct (Hu a) as [H1 H2]. unfold atoms at 1. rewrite H1, H2, (glob_eq r r' a Hg), N.sub_diag, N.mul_0_r, N.add_0_l.
    unfold oval, ogetN. destruct (oget eff u) as [w|] eqn:E; cbn [dflt].
    - unfold amt, atoms. rewrite N.mul_add_distr_l.
      pose proof (N.mul_div_le (w * (glob r a - idx r u a)) DEC) as Hle. pose proof DEC_pos. lia.
    - assert (Hn : get_dist r u a = None).
      { destruct (get_dist r u a) as [d|] eqn:E'; [|reflexivity]. apply Hd in E'. unfold ohas in E'. rewrite E in E'. discriminate. }
      unfold amt, pend. rewrite Hn, N.mul_0_l, N.div_0_l by (pose proof DEC_pos; lia). lia. }
  lia.
Qed.

Lemma distribute_one_ok T r a A r' :
  distribute_one T r (a, A) = Ok r' ->
  T <> 0 /\ r' = set_global r a (glob r a + A * DEC / T) /\ glob r a + A * DEC / T < M128.
Proof.
  intros H. unfold distribute_one, dec_from_ratio, dec_checked_from_ratio in H.
  destruct (T =? 0) eqn:ET; [discriminate|]. destruct (A * DEC / T <? M128) eqn:EM; [|discriminate].
  cbn [bind] in H. bind_inv H. clean. unfold glob. repeat split; try lia.
Qed.

Lemma glob_set_global r a g a' : glob (set_global r a g) a' = if a =? a' then g else glob r a'.
Proof. unfold glob, set_global; cbn [r_global]. apply ogetN_oset. Qed.

Lemma idx_set_global r a g u a' : idx (set_global r a g) u a' = idx r u a'.
Proof. reflexivity. Qed.
Lemma pend_set_global r a g u a' : pend (set_global r a g) u a' = pend r u a'.
Proof. reflexivity. Qed.

Lemma raise_side_ok r eff a x : side_ok r eff -> side_ok (set_global r a (glob r a + x)) eff.
Proof.
  intros (Hi & Hd & Hz). split; [|split].
  - intros u a'. rewrite glob_set_global, idx_set_global. specialize (Hi u a'). destruct (a =? a') eqn:E; [|exact Hi].
    replace a' with a in * by lia. lia.
  - exact Hd.
  - intros u a' H. rewrite glob_set_global in H. rewrite pend_set_global. apply Hz.
    destruct (a =? a') eqn:E; [|exact H]. replace a' with a by lia. lia.
Qed.

Lemma raise_potential r eff a x a' : side_ok r eff ->
  potential (set_global r a (glob r a + x)) eff a' =
  potential r eff a' + (if a =? a' then x * osum (fun _ w => w) eff else 0).
Proof.
  intros (Hi & _ & _). unfold potential. destruct (a =? a') eqn:E.
  - replace a' with a by lia. rewrite <- osum_mul, <- osum_add. apply osum_ext. intros u w _. unfold atoms.
    rewrite glob_set_global, idx_set_global, pend_set_global, N.eqb_refl. specialize (Hi u a). nia.
  - rewrite N.add_0_r. apply osum_ext. intros u w _. unfold atoms.
    rewrite glob_set_global, idx_set_global, pend_set_global, E. reflexivity.
Qed.

(** ** Claims *)

Lemma existsb_eqb a l : existsb (N.eqb a) l = true <-> In a l.
Proof.
  rewrite existsb_exists. split; [intros [x [H1 H2]]; apply N.eqb_eq in H2; subst; exact H1|].
  intros H. exists a. rewrite N.eqb_refl. auto.
Qed.

Lemma existsb_eqb_false a l : existsb (N.eqb a) l = false <-> ~ In a l.
Proof. rewrite <- existsb_eqb. destruct (existsb _ _); split; intros; congruence. Qed.

Lemma dedup_app a l : forall seen,
  dedup seen (l ++ [a]) = dedup seen l ++ (if existsb (N.eqb a) (seen ++ l) then [] else [a]).
Proof.
  induction l as [|b t IH]; intros seen; cbn [dedup app].
  - rewrite app_nil_r. destruct (existsb (N.eqb a) seen); reflexivity.
  - destruct (existsb (N.eqb b) seen) eqn:E.
    + rewrite IH. f_equal.
      replace (existsb (N.eqb a) (seen ++ b :: t)) with (existsb (N.eqb a) (seen ++ t)); [reflexivity|].
      rewrite !existsb_app. cbn [existsb]. destruct (a =? b) eqn:E2; [|reflexivity].
      replace b with a in E by lia. rewrite E. reflexivity.
    + cbn [app]. rewrite IH. do 2 f_equal. cbn [app]. rewrite !existsb_app. cbn [existsb].
      replace (existsb (N.eqb a) (b :: seen ++ t)) with ((a =? b) || existsb (N.eqb a) (seen ++ t)) by reflexivity.
      rewrite existsb_app. destruct (a =? b), (existsb (N.eqb a) seen); reflexivity.
Qed.

Lemma dedup_In a l : forall seen, In a (dedup seen l) <-> In a l /\ ~ In a seen.
Proof.
  induction l as [|b t IH]; intros seen; cbn [dedup In]; [tauto|].
  destruct (existsb (N.eqb b) seen) eqn:E.
  - apply existsb_eqb in E. rewrite IH. split; [tauto|]. intros [[->|H] Hn]; tauto.
  - apply existsb_eqb_false in E. cbn [In]. rewrite IH. cbn [In].
    destruct (N.eq_dec b a) as [->|Hne]; tauto.
Qed.

Lemma dedup_NoDup l : forall seen, NoDup (dedup seen l).
Proof.
  induction l as [|b t IH]; intros seen; cbn [dedup]; [constructor|].
  destruct (existsb (N.eqb b) seen); [apply IH|]. constructor; [|apply IH].
  rewrite dedup_In. cbn [In]. tauto.
Qed.

(** The claim loop over the assets [l] paid [outs]. *)
Definition claimed (r : rewards) (u w : N) (l : list N) (r' : rewards) (outs : list (N * N)) : Prop :=
  r_global r' = r_global r /\
  (forall u' a, u' <> u -> get_dist r' u' a = get_dist r u' a) /\
  (forall a, get_dist r' u a = if existsb (N.eqb a) l && negb (amt r w u a =? 0)
                               then Some (mk_distribution (glob r a) 0) else get_dist r u a) /\
  (forall a, In a l -> amt r w u a < M128) /\
  outs = map (fun a => (a, amt r w u a)) (filter (fun a => negb (amt r w u a =? 0)) (dedup [] l)).

Lemma div0 x : x * 0 / DEC = 0.
Proof. rewrite N.mul_0_r, N.div_0_l; [reflexivity|pose proof DEC_pos; lia]. Qed.

Lemma claim_fold r u w l : (forall a, idx r u a <= glob r a) -> (forall a, glob r a = 0 -> pend r u a = 0) ->
  forall r' outs, fold_res (claim_one u w) (r, []) l = Ok (r', outs) -> claimed r u w l r' outs.
Proof.
  intros Hi Hz. induction l as [|a l IH] using rev_ind; intros r' outs H.
  - cbn in H. inversion H; subst. unfold claimed. split; [|split; [|split; [|split]]]; auto.
    intros a [].
  - rewrite fold_res_app in H. apply bind_ok in H. destruct H as [[r1 o1] [H1 H]].
    destruct (IH r1 o1 H1) as (Hg & Ho & Hy & Hm & Hout). clear IH H1.
    cbn [fold_res] in H. bind_inv H. inversion H; subst x; clear H. unfold claim_one in Hb.
    fold (glob r1 a) in Hb. rewrite (glob_eq r r1 a Hg) in Hb.
    assert (Hadd : dedup [] (l ++ [a]) = dedup [] l ++ (if existsb (N.eqb a) l then [] else [a])) by apply dedup_app.
    specialize (Hy a) as Hya.
    destruct (existsb (N.eqb a) l && negb (amt r w u a =? 0)) eqn:Ein.
    + (* paid before: nothing is due *)
      apply Bool.andb_true_iff in Ein. destruct Ein as [Ein Hnz]. 
      assert (Hi1 : idx r1 u a = glob r a) by (unfold idx; rewrite Hya; reflexivity).
      assert (Hp1 : pend r1 u a = 0) by (unfold pend; rewrite Hya; reflexivity).
      assert (Ha1 : amt r1 w u a = 0) by (rewrite amt_idx_glob; [exact Hp1|]; rewrite (glob_eq r r1 a Hg); exact Hi1).
      assert (Hr : (r', outs) = (r1, o1)).
      { destruct (glob r a =? 0); [congruence|]. bind_inv Hb.
        apply (user_reward_ok r1) in Hb0; [|symmetry; apply glob_eq; exact Hg]. destruct Hb0 as (-> & _ & _).
        rewrite Ha1 in Hb. cbn in Hb. congruence. }
      inversion Hr; subst r' outs. rewrite Ein, app_nil_r in Hadd.
      unfold claimed. rewrite Hadd. split; [exact Hg|]. split; [exact Ho|].
      split; [|split; [|exact Hout]].
      * intros a'. rewrite Hy, existsb_app. cbn [existsb]. rewrite Bool.orb_false_r.
        destruct (a' =? a) eqn:E; [|rewrite Bool.orb_false_r; reflexivity].
        replace a' with a by lia. rewrite Ein. reflexivity.
      * intros a' H'. apply Hm. apply in_app_or in H'. destruct H' as [H'|[<-|[]]]; [assumption|]. apply existsb_eqb; exact Ein.
    + destruct (idx_dist r r1 u a Hya) as [Hix Hpe].
      assert (Hamt : amt r1 w u a = amt r w u a) by (unfold amt; rewrite Hix, Hpe, (glob_eq r r1 a Hg); reflexivity).
      assert (Hcase : (amt r w u a = 0 /\ (r', outs) = (r1, o1)) \/
                      (amt r w u a <> 0 /\ existsb (N.eqb a) l = false /\ amt r w u a < M128 /\
                       r' = set_dist r1 u a (mk_distribution (glob r a) 0) /\ outs = o1 ++ [(a, amt r w u a)])).
      { destruct (glob r a =? 0) eqn:Eg.
        - left. split; [|congruence]. unfold amt. rewrite (Hz a) by lia. replace (glob r a) with 0 by lia.
          rewrite N.sub_0_l, div0. reflexivity.
        - bind_inv Hb. apply (user_reward_ok r1) in Hb0; [|symmetry; apply glob_eq; exact Hg].
          destruct Hb0 as (-> & _ & Hlt). rewrite Hamt in *. destruct (amt r w u a =? 0) eqn:E0.
          + left. split; [lia|congruence].
          + right. inversion Hb; subst. cbn [negb] in Ein. rewrite Bool.andb_true_r in Ein.
            repeat split; [lia|exact Ein|exact Hlt]. }
      destruct Hcase as [[H0 Hr]|(H0 & Hni & Hlt & -> & ->)].
      * inversion Hr; subst r' outs. unfold claimed. rewrite Hadd, filter_app, map_app.
        replace (filter (fun a0 => negb (amt r w u a0 =? 0)) (if existsb (N.eqb a) l then [] else [a])) with (@nil N)
          by (destruct (existsb _ _); cbn [filter]; [reflexivity|]; rewrite H0; reflexivity).
        cbn [map]. rewrite app_nil_r.
        split; [exact Hg|]. split; [exact Ho|]. split; [|split; [|exact Hout]].
        -- intros a'. rewrite Hy, existsb_app. cbn [existsb]. rewrite Bool.orb_false_r.
           destruct (a' =? a) eqn:E; [|rewrite Bool.orb_false_r; reflexivity].
           replace a' with a by lia. rewrite H0. cbn [N.eqb negb]. rewrite !Bool.andb_false_r. reflexivity.
        -- intros a' H'. apply in_app_or in H'. destruct H' as [H'|[<-|[]]]; [apply Hm; exact H'|]. rewrite H0. apply M128_pos.
      * unfold claimed. rewrite Hadd, Hni, filter_app, map_app. cbn [filter].
        replace (amt r w u a =? 0) with false by lia. cbn [negb map].
        split; [exact Hg|]. split; [|split; [|split]].
        -- intros u' a' Hne. rewrite get_dist_set. replace (u' =? u) with false by lia. apply Ho; exact Hne.
        -- intros a'. rewrite get_dist_set, N.eqb_refl, existsb_app. cbn [existsb andb]. rewrite Bool.orb_false_r.
           destruct (a' =? a) eqn:E.
           ++ replace a' with a by lia. rewrite Bool.orb_true_r. replace (amt r w u a =? 0) with false by lia. reflexivity.
           ++ rewrite Bool.orb_false_r. apply Hy.
        -- intros a' H'. apply in_app_or in H'. destruct H' as [H'|[<-|[]]]; [apply Hm; exact H'|exact Hlt].
        -- rewrite Hout. reflexivity.
Qed.

Lemma side_absent r eff u : side_ok r eff -> oget eff u = None -> forall a, get_dist r u a = None.
Proof.
  intros (_ & Hd & _) Hu a. destruct (get_dist r u a) as [d|] eqn:E; [|reflexivity].
  apply Hd in E. unfold ohas in E. rewrite Hu in E. discriminate.
Qed.

Lemma absent_amt r eff u a : side_ok r eff -> oget eff u = None -> amt r (ogetN eff u) u a = 0.
Proof.
  intros Hs Hu. unfold amt, pend, ogetN. rewrite (side_absent r eff u Hs Hu a), Hu. cbn [dflt].
  rewrite N.mul_0_l, N.div_0_l by (pose proof DEC_pos; lia). reflexivity.
Qed.

Lemma claimed_cases r u w l r' outs a : claimed r u w l r' outs ->
  get_dist r' u a = get_dist r u a \/
  (In a l /\ amt r w u a <> 0 /\ get_dist r' u a = Some (mk_distribution (glob r a) 0)).
Proof.
  intros (_ & _ & Hy & _). rewrite (Hy a). destruct (existsb (N.eqb a) l && negb (amt r w u a =? 0)) eqn:E; [|auto].
  apply Bool.andb_true_iff in E. destruct E as [E1 E2]. apply existsb_eqb in E1. right. split; [exact E1|]. split; [lia|reflexivity].
Qed.

Lemma claimed_amt r u w l r' outs a : claimed r u w l r' outs ->
  amt r' w u a = if existsb (N.eqb a) l then 0 else amt r w u a.
Proof.
  intros Hc. destruct Hc as (Hg & _ & Hy & _). specialize (Hy a).
  destruct (existsb (N.eqb a) l && negb (amt r w u a =? 0)) eqn:E.
  - apply Bool.andb_true_iff in E. destruct E as [-> E2]. rewrite amt_idx_glob; unfold idx, pend; rewrite Hy; cbn.
    + reflexivity.
    + symmetry. apply glob_eq. exact Hg.
  - destruct (idx_dist r r' u a Hy) as [H1 H2]. assert (Ha : amt r' w u a = amt r w u a).
    { unfold amt. rewrite H1, H2, (glob_eq r r' a Hg). reflexivity. }
    rewrite Ha. destruct (existsb (N.eqb a) l); [|reflexivity]. cbn [andb] in E. lia.
Qed.

Lemma claimed_amt_other r u w l r' outs : claimed r u w l r' outs -> forall w' u' a, u' <> u -> amt r' w' u' a = amt r w' u' a.
Proof.
  intros (Hg & Ho & _) w' u' a Hne. destruct (idx_dist r r' u' a (Ho u' a Hne)) as [H1 H2].
  unfold amt. rewrite H1, H2, (glob_eq r r' a Hg). reflexivity.
Qed.

Lemma claimed_side_ok r eff u l r' outs :
  side_ok r eff -> claimed r u (ogetN eff u) l r' outs -> side_ok r' eff.
Proof.
  intros Hs Hc. assert (Hcc := fun a => claimed_cases r u (ogetN eff u) l r' outs a Hc).
  destruct Hc as (Hg & Ho & _). assert (Hs' := Hs). destruct Hs as (Hi & Hd & Hz).
  split; [|split].
  - intros u' a. rewrite (glob_eq r r' a Hg). destruct (N.eq_dec u' u) as [->|Hne].
    + destruct (Hcc a) as [H|(_ & _ & H)]; [destruct (idx_dist r r' u a H) as [-> _]; apply Hi|].
      unfold idx. rewrite H. cbn. lia.
    + destruct (idx_dist r r' u' a (Ho u' a Hne)) as [-> _]. apply Hi.
  - intros u' a d H. destruct (N.eq_dec u' u) as [->|Hne].
    + destruct (Hcc a) as [H0|(_ & H0 & _)]; [rewrite H0 in H; exact (Hd u a d H)|].
      destruct (ohas eff u) eqn:E; [reflexivity|]. exfalso. apply H0. apply absent_amt; [exact Hs'|].
      unfold ohas in E. destruct (oget eff u); [discriminate|reflexivity].
    + rewrite (Ho u' a Hne) in H. exact (Hd u' a d H).
  - intros u' a H. rewrite (glob_eq r r' a Hg) in H. destruct (N.eq_dec u' u) as [->|Hne].
    + destruct (Hcc a) as [H0|(_ & _ & H0)]; [destruct (idx_dist r r' u a H0) as [_ ->]; apply Hz; exact H|].
      unfold pend. rewrite H0. reflexivity.
    + destruct (idx_dist r r' u' a (Ho u' a Hne)) as [_ ->]. apply Hz; exact H.
Qed.

Lemma lsum_single (f : N -> N) l a : NoDup l ->
  lsum (fun x => if x =? a then f x else 0) l = if existsb (N.eqb a) l then f a else 0.
Proof.
  induction l as [|b t IH]; intros Hnd; [reflexivity|]. inversion Hnd as [|? ? Hni Hnd']; subst.
  rewrite lsum_cons. cbn [existsb]. rewrite (IH Hnd'). rewrite (N.eqb_sym b a). destruct (a =? b) eqn:E; cbn [orb].
  - replace b with a in * by lia. apply existsb_eqb_false in Hni. rewrite Hni. lia.
  - reflexivity.
Qed.

Definition payout (outs : list (N * N)) (a : N) : N := lsum (fun p => if fst p =? a then snd p else 0) outs.

Lemma claimed_payout r u w l r' outs a :
  claimed r u w l r' outs -> payout outs a = if existsb (N.eqb a) l then amt r w u a else 0.
Proof.
  intros (_ & _ & _ & _ & ->). unfold payout. rewrite lsum_map, lsum_filter. cbn [fst snd].
  rewrite (lsum_ext_in _ (fun x => if x =? a then amt r w u x else 0)).
  - rewrite lsum_single by apply dedup_NoDup.
    replace (existsb (N.eqb a) (dedup [] l)) with (existsb (N.eqb a) l); [reflexivity|].
    apply Bool.eq_true_iff_eq. rewrite !existsb_eqb, dedup_In. cbn [In]. tauto.
  - intros x _. destruct (amt r w u x =? 0) eqn:E; cbn [negb]; [|reflexivity]. destruct (x =? a); lia.
Qed.

Lemma div_le_mul w d : DEC * (w * d / DEC) <= w * d.
Proof. apply N.mul_div_le. pose proof DEC_pos; lia. Qed.

Lemma amt_le_atoms r w u a : DEC * amt r w u a <= atoms r w u a.
Proof.
  unfold amt, atoms. rewrite N.mul_add_distr_l. pose proof (div_le_mul w (glob r a - idx r u a)). lia.
Qed.

Lemma claimed_potential r eff u l r' outs a :
  side_ok r eff -> claimed r u (ogetN eff u) l r' outs ->
  DEC * payout outs a + potential r' eff a <= potential r eff a.
Proof.
  intros Hs Hc. rewrite (claimed_payout _ _ _ _ _ _ a Hc). destruct Hc as (Hg & Ho & Hy & _).
  assert (Hpre : forall k' v', k' <> u -> atoms r' v' k' a = atoms r v' k' a).
  { intros k' v' Hne. destruct (idx_dist r r' k' a (Ho k' a Hne)) as [H1 H2]. unfold atoms.
    rewrite H1, H2, (glob_eq r r' a Hg). reflexivity. }
  destruct (oget eff u) as [w|] eqn:E.
  - pose proof (osum_change (fun u0 w => atoms r w u0 a) (fun u0 w => atoms r' w u0 a) eff u w Hpre) as H.
    rewrite (oset_same eff u w E) in H. unfold oval in H. rewrite E in H. unfold potential.
    assert (Hw : ogetN eff u = w) by (unfold ogetN; rewrite E; reflexivity). rewrite Hw in *.
    assert (Ha : DEC * (if existsb (N.eqb a) l then amt r w u a else 0) + atoms r' w u a <= atoms r w u a); [|lia].
    specialize (Hy a). destruct (existsb (N.eqb a) l && negb (amt r w u a =? 0)) eqn:Ec.
    + apply Bool.andb_true_iff in Ec. destruct Ec as [-> _].
      pose proof (amt_le_atoms r w u a). unfold atoms at 1. unfold idx, pend. rewrite Hy. cbn [d_index d_pending].
      rewrite (glob_eq r r' a Hg), N.sub_diag. lia.
    + assert (Hz : (if existsb (N.eqb a) l then amt r w u a else 0) = 0) by (destruct (existsb _ _); cbn [andb] in Ec; lia).
      destruct (idx_dist r r' u a Hy) as [H1 H2]. rewrite Hz. unfold atoms. rewrite H1, H2, (glob_eq r r' a Hg). lia.
  - rewrite (absent_amt r eff u a Hs E). destruct (existsb _ _); rewrite N.mul_0_r, N.add_0_l;
    apply osum_le; intros k v Hk; rewrite Hpre by congruence; lia.
Qed.

(** ** Whole states *)

Definition wsum (m : omap N) : N := osum (fun _ w => w) m.

Lemma wsum_oset m u e : wsum (oset m u e) + ogetN m u = wsum m + e.
Proof. unfold wsum. pose proof (osum_oset (fun _ w => w) m u e). rewrite oval_ogetN in H. exact H. Qed.

Lemma wsum_ge m u : ogetN m u <= wsum m.
Proof. unfold wsum. rewrite <- oval_ogetN. apply oval_le. Qed.

Definition namt (f : funds) (u a : N) : N := amt (f_native f) (ogetN (f_eff f) u) u a.
Definition camt (f : funds) (u a : N) : N := amt (f_cw20 f) (ogetN (f_eff f) u) u a.

Definition eligible (f : funds) : Prop :=
  forall u, oget (f_eff f) u = option_map (fun w => effective_weight w (f_min f)) (oget (f_weights f) u).

Definition funds_ok (f : funds) : Prop :=
  f_total f = wsum (f_eff f) /\ eligible f /\ side_ok (f_native f) (f_eff f) /\ side_ok (f_cw20 f) (f_eff f).

(** From [f0] weights changed to [f] (running total [t]); no claimable amount changed. *)
Record evolved (f0 f : funds) (t : N) : Prop := {
  ev_admin : f_admin f = f_admin f0;
  ev_ent : f_enterprise f = f_enterprise f0;
  ev_min : f_min f = f_min f0;
  ev_total : t = wsum (f_eff f);
  ev_ok_n : side_ok (f_native f) (f_eff f);
  ev_ok_c : side_ok (f_cw20 f) (f_eff f);
  ev_glob_n : r_global (f_native f) = r_global (f_native f0);
  ev_glob_c : r_global (f_cw20 f) = r_global (f_cw20 f0);
  ev_pot_n : forall a, potential (f_native f) (f_eff f) a <= potential (f_native f0) (f_eff f0) a;
  ev_pot_c : forall a, potential (f_cw20 f) (f_eff f) a <= potential (f_cw20 f0) (f_eff f0) a;
  ev_amt_n : forall u a, namt f u a = namt f0 u a;
  ev_amt_c : forall u a, camt f u a = camt f0 u a
}.

Lemma evolved_refl f : f_total f = wsum (f_eff f) -> side_ok (f_native f) (f_eff f) -> side_ok (f_cw20 f) (f_eff f) ->
  evolved f f (f_total f).
Proof. intros. constructor; auto; intros; lia. Qed.

Lemma evolve_step f0 f t u e n c w' t' :
  evolved f0 f t ->
  settled (f_native f) u (ogetN (f_eff f) u) n -> settled (f_cw20 f) u (ogetN (f_eff f) u) c ->
  t' = t - ogetN (f_eff f) u + e ->
  evolved f0 (with_weights (with_rewards f n c) w' (oset (f_eff f) u e)) t'.
Proof.
  intros [] Hn Hc ->. pose proof (wsum_ge (f_eff f) u). pose proof (wsum_oset (f_eff f) u e).
  constructor; cbn [f_admin f_enterprise f_min f_eff f_native f_cw20 with_weights with_rewards]; auto.
  - lia.
  - exact (settled_side_ok _ _ _ _ _ _ ev_ok_n0 Hn).
  - exact (settled_side_ok _ _ _ _ _ _ ev_ok_c0 Hc).
  - destruct Hn as [-> _]. assumption.
  - destruct Hc as [-> _]. assumption.
  - intros a. eapply N.le_trans; [exact (settled_potential _ _ _ _ _ _ ev_ok_n0 Hn)|auto].
  - intros a. eapply N.le_trans; [exact (settled_potential _ _ _ _ _ _ ev_ok_c0 Hc)|auto].
  - intros u' a. rewrite <- ev_amt_n0. unfold namt; cbn [f_eff f_native with_weights with_rewards]. rewrite ogetN_oset.
    destruct (u =? u') eqn:E.
    + replace u' with u by lia. apply settled_amt_same. exact Hn.
    + eapply settled_amt_other; [exact Hn|lia].
  - intros u' a. rewrite <- ev_amt_c0. unfold camt; cbn [f_eff f_cw20 with_weights with_rewards]. rewrite ogetN_oset.
    destruct (u =? u') eqn:E.
    + replace u' with u by lia. apply settled_amt_same. exact Hc.
    + eapply settled_amt_other; [exact Hc|lia].
Qed.

Lemma update_weight_one_ok f0 f t u w f' t' :
  evolved f0 f t -> eligible f -> update_weight_one (f, t) (u, w) = Ok (f', t') ->
  evolved f0 f' t' /\ eligible f' /\ u <> 0 /\ f_weights f' = oset (f_weights f) u w.
Proof.
  intros Hev Hel H. unfold update_weight_one in H. binv H. clean.
  assert (Hs : exists n c, x0 = with_rewards f n c /\ settled (f_native f) u (ogetN (f_eff f) u) n /\
                            settled (f_cw20 f) u (ogetN (f_eff f) u) c).
  { pose proof (ev_ok_n _ _ _ Hev) as Hn0. pose proof (ev_ok_c _ _ _ Hev) as Hc0. unfold ogetN.
    destruct (oget (f_eff f) u) as [o|] eqn:E; cbn [dflt].
    - binv Hb0. clean. eexists _, _. split; [reflexivity|]. split; eapply settle_settled; eassumption.
    - clean. eexists _, _. split; [reflexivity|]. split; eapply init_settled; eassumption. }
  destruct Hs as (n & c & -> & Hn & Hc).
  assert (Ho : dflt 0 (oget (f_eff f) u) = ogetN (f_eff f) u) by reflexivity. rewrite Ho in *.
  split; [|split; [|split]].
  - apply (evolve_step f0 f t u _ n c (oset (f_weights f) u w)); auto.
  - intros u'. cbn [f_eff f_weights f_min with_weights with_rewards]. rewrite !oget_oset.
    destruct (u =? u'); [reflexivity|]. apply Hel.
  - auto.
  - reflexivity.
Qed.

Lemma update_weights_fold f0 l : forall f t f' t', evolved f0 f t -> eligible f ->
  fold_res update_weight_one (f, t) l = Ok (f', t') ->
  evolved f0 f' t' /\ eligible f' /\ f_weights f' = fold_left (fun m uw => oset m (fst uw) (snd uw)) l (f_weights f).
Proof.
  induction l as [|[u w] l IH]; intros f t f' t' Hev Hel H; cbn [fold_res fold_left] in *.
  - inversion H; subst; auto.
  - binv H. destruct x as [f1 t1]. destruct (update_weight_one_ok _ _ _ _ _ _ _ Hev Hel Hb) as (H1 & H2 & _ & H3).
    cbn [fst snd]. rewrite <- H3. eapply IH; eassumption.
Qed.

Lemma evolved_total f0 f t : evolved f0 f t -> evolved f0 (with_total f t) t.
Proof. intros []. constructor; auto. Qed.

Lemma update_user_weights_ok f sender ch f' :
  funds_ok f -> update_user_weights f sender ch = Ok f' ->
  sender = f_admin f /\ evolved f f' (f_total f') /\ funds_ok f' /\
  f_weights f' = fold_left (fun m uw => oset m (fst uw) (snd uw)) ch (f_weights f).
Proof.
  intros (Ht & He & Hn & Hc) H. unfold update_user_weights in H. binv H. clean.
  destruct (update_weights_fold f ch f (f_total f) x1 x2 (evolved_refl f Ht Hn Hc) He Hb0) as (H1 & H2 & H3).
  split; [lia|]. split; [apply evolved_total; exact H1|]. split; [|exact H3].
  destruct H1. repeat split; auto; try apply ev_ok_n0; try apply ev_ok_c0.
Qed.

Lemma update_min_fold f0 ua l : forall f t f' t', evolved f0 f t ->
  fold_res (update_min_one ua) (f, t) l = Ok (f', t') ->
  evolved f0 f' t' /\ f_weights f' = f_weights f /\
  f_eff f' = fold_left (fun m (uw : N * N) => oset m (fst uw) (if ua then snd uw else 0)) l (f_eff f).
Proof.
  induction l as [|[u w] l IH]; intros f t f' t' Hev H; cbn [fold_res fold_left] in *.
  - inversion H; subst; auto.
  - binv H. destruct x as [f1 t1]. unfold update_min_one in Hb. binv Hb. clean. cbn [fst snd].
    pose proof (ev_ok_n _ _ _ Hev) as Hn0. pose proof (ev_ok_c _ _ _ Hev) as Hc0.
    match type of H with fold_res _ (?ff, ?tt) _ = _ =>
      destruct (IH ff tt f' t') as (A & B & C); [|exact H|] end.
    + apply (evolve_step f0 f t u _ x x0 (f_weights f)); auto; eapply settle_settled; eassumption.
    + auto.
Qed.

Lemma fold_oset_get (g : N * N -> N) l : NoDup (map fst l) -> forall m k,
  oget (fold_left (fun m (uw : N * N) => oset m (fst uw) (g uw)) l m) k =
  match find (fun uw => fst uw =? k) l with Some uw => Some (g uw) | None => oget m k end.
Proof.
  induction l as [|[u w] l IH]; intros Hnd m k; cbn [fold_left find]; [reflexivity|].
  inversion Hnd as [|? ? Hni Hnd']; subst. rewrite (IH Hnd'). cbn [fst]. rewrite oget_oset.
  destruct (u =? k) eqn:E; [|reflexivity]. replace k with u in * by lia.
  destruct (find (fun uw => fst uw =? u) l) as [[u' w']|] eqn:F; [|reflexivity].
  exfalso. apply find_some in F. destruct F as [F1 F2]. cbn [fst] in F2. apply Hni. replace u with u' by lia.
  change u' with (fst (u', w')). apply in_map. exact F1.
Qed.

Lemma NoDup_map_filter {A B} (f : A -> B) p (l : list A) : NoDup (map f l) -> NoDup (map f (filter p l)).
Proof.
  induction l as [|a t IH]; intros H; [constructor|]. cbn [map filter] in *. inversion H as [|? ? Hni Hnd]; subst.
  destruct (p a); [|auto]. cbn [map]. constructor; [|auto]. intros Hin. apply Hni.
  apply in_map_iff in Hin. destruct Hin as [x [<- Hx]]. apply filter_In in Hx. apply in_map. tauto.
Qed.

Lemma find_filter_elems p (m : omap N) k :
  find (fun uw => fst uw =? k) (filter p (elems m)) =
  match oget m k with Some w => if p (k, w) then Some (k, w) else None | None => None end.
Proof.
  destruct (find _ _) as [[k' w]|] eqn:F.
  - apply find_some in F. destruct F as [F1 F2]. cbn [fst] in F2. replace k' with k in * by lia.
    apply filter_In in F1. destruct F1 as [F1 F3]. apply oget_In in F1. rewrite F1, F3. reflexivity.
  - destruct (oget m k) as [w|] eqn:E; [|reflexivity]. destruct (p (k, w)) eqn:P; [|reflexivity].
    exfalso. apply oget_In in E. pose proof (find_none _ _ F (k, w)) as Hf. cbn [fst] in Hf.
    rewrite N.eqb_refl in Hf. discriminate Hf. apply filter_In. auto.
Qed.

Lemma update_minimum_ok f sender mn f' :
  funds_ok f -> update_minimum f sender mn = Ok f' ->
  sender = f_admin f /\ f_min f' = mn /\ f_weights f' = f_weights f /\ f_admin f' = f_admin f /\
  f_enterprise f' = f_enterprise f /\ funds_ok f' /\
  r_global (f_native f') = r_global (f_native f) /\ r_global (f_cw20 f') = r_global (f_cw20 f) /\
  (forall a, potential (f_native f') (f_eff f') a <= potential (f_native f) (f_eff f) a) /\
  (forall a, potential (f_cw20 f') (f_eff f') a <= potential (f_cw20 f) (f_eff f) a) /\
  (forall u a, namt f' u a = namt f u a) /\ (forall u a, camt f' u a = camt f u a).
Proof.
  intros (Ht & He & Hn & Hc) H. unfold update_minimum in H. binv H. clean.
  destruct (f_min f =? mn) eqn:Em.
  - clean. assert (f_min f' = mn) by lia. split; [lia|]. repeat split; auto; try apply Hn; try apply Hc; intros; lia.
  - set (lohi := if f_min f <? mn then (f_min f, mn) else (mn, f_min f)) in H.
    destruct lohi as [lo hi] eqn:Elh. binv H. clean.
    destruct (update_min_fold f _ _ _ _ _ _ (evolved_refl f Ht Hn Hc) Hb0) as (H1 & H2 & H3).
    split; [lia|]. destruct H1. split; [reflexivity|].
    split; [exact H2|]. split; [exact ev_admin0|]. split; [exact ev_ent0|].
    split; [|repeat split; auto].
    split; [exact ev_total0|]. split; [|split; assumption].
    intros u. cbn [f_eff f_weights f_min with_total with_min]. rewrite H3, H2.
    rewrite (fold_oset_get (fun uw => if mn <? f_min f then snd uw else 0)) by (apply NoDup_map_filter; apply okeys_NoDup).
    rewrite find_filter_elems. rewrite (He u). destruct (oget (f_weights f) u) as [w|]; [|reflexivity].
    cbn [option_map snd]. unfold effective_weight.
    subst lohi. destruct (f_min f <? mn) eqn:E1; inversion Elh; subst lo hi.
    + replace (mn <? f_min f) with false by lia.
      destruct ((f_min f <=? w) && (w <? mn)) eqn:E2.
      * replace (mn <=? w) with false by lia. reflexivity.
      * destruct (mn <=? w) eqn:E3, (f_min f <=? w) eqn:E4; try reflexivity; lia.
    + replace (mn <? f_min f) with true by lia.
      destruct ((mn <=? w) && (w <? f_min f)) eqn:E2.
      * replace (mn <=? w) with true by lia. reflexivity.
      * destruct (mn <=? w) eqn:E3, (f_min f <=? w) eqn:E4; try reflexivity; lia.
Qed.

(** ** Instantiation *)

Lemma side_empty eff : side_ok (mk_rewards oempty oempty) eff.
Proof. repeat split; intros; cbn in *; try lia; try discriminate. Qed.

Lemma instantiate_fold mn l : forall f t f' t',
  f_min f = mn -> t = wsum (f_eff f) -> eligible f ->
  f_native f = mk_rewards oempty oempty -> f_cw20 f = mk_rewards oempty oempty ->
  fold_res save_initial_one (f, t) l = Ok (f', t') ->
  f_min f' = mn /\ t' = wsum (f_eff f') /\ eligible f' /\
  f_native f' = mk_rewards oempty oempty /\ f_cw20 f' = mk_rewards oempty oempty /\
  f_admin f' = f_admin f /\ f_enterprise f' = f_enterprise f /\
  f_weights f' = fold_left (fun m uw => oset m (fst uw) (snd uw)) l (f_weights f) /\
  NoDup (map fst l) /\ (forall u, In u (map fst l) -> oget (f_weights f) u = None /\ u <> 0).
Proof.
  induction l as [|[u w] l IH]; intros f t f' t' Hm Ht He Hn Hc H; cbn [fold_res fold_left map] in *.
  - inversion H; subst. repeat split; auto; try constructor; intros; contradiction.
  - binv H. destruct x as [f1 t1]. unfold save_initial_one in Hb. binv Hb. clean. cbn [fst snd].
    assert (Hnone : oget (f_weights f) u = None /\ oget (f_eff f) u = None).
    { unfold ohas in Hb1. destruct (oget (f_weights f) u), (oget (f_eff f) u); cbn in Hb1; try discriminate; auto. }
    destruct Hnone as [Hw0 He0].
    apply IH in H; cbn [f_min f_native f_cw20 f_eff f_weights with_weights]; auto.
    + cbn [f_min f_native f_cw20 f_eff f_weights f_admin f_enterprise with_weights] in H.
      destruct H as (H1 & H2 & H3 & H4 & H5 & H6 & H7 & H8 & H9 & H10). repeat split; auto.
      * constructor; [|exact H9]. intros Hin. destruct (H10 u Hin) as [H11 _]. rewrite oget_oset_eq in H11. discriminate.
      * destruct H as [<-|Hin]; [exact Hw0|]. destruct (H10 u0 Hin) as [H12 _]. rewrite oget_oset in H12.
        destruct (u =? u0); [discriminate|exact H12].
      * destruct H as [<-|Hin]; [exact Hb0|]. apply (H10 u0 Hin).
    + pose proof (wsum_oset (f_eff f) u (effective_weight w (f_min f))) as Hs.
      unfold ogetN in Hs. rewrite He0 in Hs. cbn [dflt] in Hs. lia.
    + intros u'. cbn [f_eff f_weights f_min with_weights]. rewrite !oget_oset. destruct (u =? u'); [reflexivity|apply He].
Qed.

Lemma instantiate_ok admin ent mn l f :
  funds_instantiate admin ent mn l = Ok f ->
  funds_ok f /\ f_admin f = admin /\ f_enterprise f = ent /\ f_min f = dflt 0 mn /\
  f_native f = mk_rewards oempty oempty /\ f_cw20 f = mk_rewards oempty oempty /\
  f_weights f = fold_left (fun m uw => oset m (fst uw) (snd uw)) l oempty /\
  NoDup (map fst l) /\ ~ In 0 (map fst l).
Proof.
  intros H. unfold funds_instantiate in H. binv H. clean.
  apply (instantiate_fold (dflt 0 mn)) in Hb1; cbn [f_min f_eff f_native f_cw20 f_admin f_enterprise f_weights]; auto;
    [|intros u; reflexivity].
  cbn [f_min f_eff f_native f_cw20 f_admin f_enterprise f_weights] in Hb1.
  destruct Hb1 as (H1 & H2 & H3 & H4 & H5 & H6 & H7 & H8 & H9 & H10). 
  split; [split; [exact H2|split; [exact H3|]]; cbn; rewrite H4, H5; split; apply side_empty|].
  do 7 (split; [assumption|]). intros Hin. destruct (H10 0 Hin) as [_ Hne]. congruence.
Qed.

(** ** Distribution *)

Lemma distribute_fold T eff l : T = wsum eff -> forall r r', side_ok r eff ->
  fold_res (distribute_one T) r l = Ok r' ->
  side_ok r' eff /\ (forall u a, get_dist r' u a = get_dist r u a) /\
  (forall a, potential r' eff a <= potential r eff a + DEC * payout l a) /\
  (forall a, glob r' a = glob r a + lsum (fun p => if fst p =? a then snd p * DEC / T else 0) l) /\
  (forall a, glob r a <= glob r' a).
Proof.
  intros HT. induction l as [|[d A] l IH]; intros r r' Hs H; cbn [fold_res] in H.
  - inversion H; subst. repeat split; auto; try apply Hs; intros; unfold payout, lsum; cbn [fold_right]; lia.
  - binv H. apply distribute_one_ok in Hb. destruct Hb as (HT0 & -> & Hlt).
    destruct (IH _ r' (raise_side_ok r eff d (A * DEC / T) Hs) H) as (H1 & H2 & H3 & H4 & H5).
    split; [exact H1|]. split; [exact H2|]. split; [|split].
    + intros a. specialize (H3 a). rewrite (raise_potential r eff d _ a Hs) in H3. unfold payout in *.
      rewrite lsum_cons. cbn [fst snd]. destruct (d =? a); [|lia].
      assert (A * DEC / T * osum (fun _ w => w) eff <= A * DEC); [|lia].
      fold (wsum eff). rewrite <- HT. rewrite N.mul_comm. apply N.mul_div_le. exact HT0.
    + intros a. rewrite (H4 a), glob_set_global, lsum_cons. cbn [fst snd]. destruct (d =? a) eqn:E; [|lia].
      replace a with d by lia. lia.
    + intros a. specialize (H5 a). rewrite glob_set_global in H5. destruct (d =? a) eqn:E; [|exact H5].
      replace a with d in * by lia. qlia.
Qed.

Lemma distribute_native_ok wl f coins f' : funds_ok f -> distribute_native wl f coins = Ok f' ->
  f_total f <> 0 /\ exists n, f' = with_rewards f n (f_cw20 f) /\ fold_res (distribute_one (f_total f)) (f_native f) coins = Ok n.
Proof.
  intros _ H. unfold distribute_native in H. binv H. clean. split; [lia|]. exists x1. auto.
Qed.

Lemma distribute_cw20_ok wl f sender amount f' : funds_ok f -> distribute_cw20 wl f sender amount = Ok f' ->
  f_total f <> 0 /\ exists c, f' = with_rewards f (f_native f) c /\
  fold_res (distribute_one (f_total f)) (f_cw20 f) [(sender, amount)] = Ok c.
Proof.
  intros _ H. unfold distribute_cw20 in H. binv H. clean. split; [lia|]. exists x1. split; [reflexivity|].
  cbn [fold_res]. rewrite Hb1. reflexivity.
Qed.

(** ** Claim *)

Lemma fold_validate {S} (g : S -> N -> res S) l : forall s s',
  fold_res (fun s a => a <- addr_validate a ;; g s a) s l = Ok s' -> fold_res g s l = Ok s' /\ ~ In 0 l.
Proof.
  induction l as [|a l IH]; intros s s' H; cbn [fold_res] in *; [auto|].
  binv H. binv Hb. clean. destruct (IH _ _ H) as [H1 H2]. rewrite Hb. cbn [bind In]. split; [exact H1|]. intros [->|Hin]; auto.
Qed.

Lemma claim_ok restricted f sender user ns cs f' ps : funds_ok f ->
  claim_rewards restricted f sender user ns cs = Ok (f', ps) ->
  restricted = false /\ sender = user /\ user <> 0 /\ ~ In 0 cs /\
  exists n o1 c o2, f' = with_rewards f n c /\
    claimed (f_native f) user (ogetN (f_eff f) user) ns n o1 /\
    claimed (f_cw20 f) user (ogetN (f_eff f) user) cs c o2 /\
    ps = map (fun p => mk_payment (Native (fst p)) user (snd p)) o1 ++
         map (fun p => mk_payment (Cw20 (fst p)) user (snd p)) o2.
Proof.
  intros (_ & _ & (Hn1 & _ & Hn2) & (Hc1 & _ & Hc2)) H. unfold claim_rewards in H. binv H. clean.
  apply fold_validate in Hb3. destruct Hb3 as [Hb3 H0]. apply N.eqb_eq in Hb1. subst sender.
  split; [destruct restricted; [discriminate|reflexivity]|]. split; [reflexivity|]. split; [exact Hb0|]. split; [exact H0|].
  eexists _, _, _, _. split; [reflexivity|]. split; [apply claim_fold; auto; exact Hb2|].
  split; [apply claim_fold; auto; exact Hb3|reflexivity].
Qed.

(** ** Histories *)

Lemma total_of_app a l1 l2 : total_of a (l1 ++ l2) = total_of a l1 + total_of a l2.
Proof. unfold total_of. rewrite filter_app, lsum_app. reflexivity. Qed.

Lemma total_of_native d l : total_of (Native d) (map (fun x => (Native (fst x), snd x)) l) = payout l d.
Proof.
  unfold total_of, payout. rewrite lsum_filter, lsum_map. apply lsum_ext_in. intros [a x] _.
  cbn [fst snd asset_eqb]. rewrite (N.eqb_sym a d). reflexivity.
Qed.
Lemma total_of_cw20 d l : total_of (Cw20 d) (map (fun x => (Cw20 (fst x), snd x)) l) = payout l d.
Proof.
  unfold total_of, payout. rewrite lsum_filter, lsum_map. apply lsum_ext_in. intros [a x] _.
  cbn [fst snd asset_eqb]. rewrite (N.eqb_sym a d). reflexivity.
Qed.
Lemma total_of_native_none d l : total_of (Native d) (map (fun x : N * N => (Cw20 (fst x), snd x)) l) = 0.
Proof. unfold total_of. rewrite lsum_filter, lsum_map. apply lsum_zero. intros [a x] _. reflexivity. Qed.
Lemma total_of_cw20_none d l : total_of (Cw20 d) (map (fun x : N * N => (Native (fst x), snd x)) l) = 0.
Proof. unfold total_of. rewrite lsum_filter, lsum_map. apply lsum_zero. intros [a x] _. reflexivity. Qed.

(** One accepted call: what it pays and takes in, against the change of the potentials. *)
Lemma execute_balance o f sender coins m f' ps : funds_ok f ->
  funds_execute o f sender coins m = Ok (f', ps) ->
  let din := handed_over f (mk_fcall o sender coins m) in
  funds_ok f' /\ f_admin f' = f_admin f /\ f_enterprise f' = f_enterprise f /\
  (forall d, DEC * total_of (Native d) (paid_amounts ps) + potential (f_native f') (f_eff f') d
             <= potential (f_native f) (f_eff f) d + DEC * total_of (Native d) din) /\
  (forall d, DEC * total_of (Cw20 d) (paid_amounts ps) + potential (f_cw20 f') (f_eff f') d
             <= potential (f_cw20 f) (f_eff f) d + DEC * total_of (Cw20 d) din).
Proof.
  intros Hok H. unfold handed_over. cbn [fc_oracle fc_sender fc_coins fc_msg]. rewrite H. cbv zeta.
  assert (Z : forall d, total_of d (paid_amounts []) = 0) by reflexivity.
  assert (Z2 : forall d, total_of d [] = 0) by reflexivity.
  destruct m as [ch|mn| |user ns cs|amount known]; cbn [funds_execute] in H.
  - binv H. clean. destruct (update_user_weights_ok _ _ _ _ Hok Hb) as (_ & [] & H2 & _).
    split; [exact H2|]. split; [auto|]. split; [auto|]. split; intros d; rewrite Z, Z2; [specialize (ev_pot_n0 d)|specialize (ev_pot_c0 d)]; lia.
  - binv H. clean. destruct (update_minimum_ok _ _ _ _ Hok Hb) as (_ & _ & _ & H4 & H5 & H6 & _ & _ & H7 & H8 & _).
    split; [exact H6|]. split; [auto|]. split; [auto|]. split; intros d; rewrite Z, Z2; [specialize (H7 d)|specialize (H8 d)]; lia.
  - binv H. clean. destruct (distribute_native_ok _ _ _ _ Hok Hb) as (_ & n & -> & Hf).
    destruct Hok as (Ht & He & Hn & Hc). destruct (distribute_fold _ (f_eff f) _ Ht _ _ Hn Hf) as (H1 & _ & H3 & _).
    split; [repeat split; auto; try apply H1; apply Hc|]. split; [reflexivity|]. split; [reflexivity|].
    cbn [f_native f_cw20 f_eff with_rewards]. split; intros d; rewrite Z.
    + rewrite total_of_native. specialize (H3 d). lia.
    + rewrite total_of_cw20_none. lia.
  - destruct (claim_ok _ _ _ _ _ _ _ _ Hok H) as (_ & _ & _ & _ & n & o1 & c & o2 & -> & Hn' & Hc' & ->).
    destruct Hok as (Ht & He & Hn & Hc).
    split; [repeat split; auto; try apply (claimed_side_ok _ _ _ _ _ _ Hn Hn'); apply (claimed_side_ok _ _ _ _ _ _ Hc Hc')|].
    split; [reflexivity|]. split; [reflexivity|].
    cbn [f_native f_cw20 f_eff with_rewards].
    assert (Hp : paid_amounts (map (fun p => mk_payment (Native (fst p)) user (snd p)) o1 ++
                      map (fun p => mk_payment (Cw20 (fst p)) user (snd p)) o2) =
                 map (fun x => (Native (fst x), snd x)) o1 ++ map (fun x => (Cw20 (fst x), snd x)) o2).
    { unfold paid_amounts. rewrite map_app, !map_map. reflexivity. }
    rewrite Hp. split; intros d; rewrite total_of_app.
    + rewrite total_of_native, total_of_native_none, Z2. pose proof (claimed_potential _ _ _ _ _ _ d Hn Hn'). lia.
    + rewrite total_of_cw20, total_of_cw20_none, Z2. pose proof (claimed_potential _ _ _ _ _ _ d Hc Hc'). lia.
  - destruct known; [|discriminate]. binv H. clean. destruct (distribute_cw20_ok _ _ _ _ _ Hok Hb) as (_ & c & -> & Hf).
    destruct Hok as (Ht & He & Hn & Hc). destruct (distribute_fold _ (f_eff f) _ Ht _ _ Hc Hf) as (H1 & _ & H3 & _).
    split; [repeat split; auto; try apply H1; apply Hn|]. split; [reflexivity|]. split; [reflexivity|].
    cbn [f_native f_cw20 f_eff with_rewards].
    change [(Cw20 sender, amount)] with (map (fun x : N * N => (Cw20 (fst x), snd x)) [(sender, amount)]).
    split; intros d; rewrite Z.
    + rewrite total_of_native_none. lia.
    + rewrite total_of_cw20. rewrite N.mul_0_r. exact (H3 d).
Qed.

Definition solvent (b : books) : Prop :=
  funds_ok (b_funds b) /\
  (forall d, DEC * total_of (Native d) (paid_amounts (b_paid b)) + potential (f_native (b_funds b)) (f_eff (b_funds b)) d
             <= DEC * total_of (Native d) (b_distributed b)) /\
  (forall d, DEC * total_of (Cw20 d) (paid_amounts (b_paid b)) + potential (f_cw20 (b_funds b)) (f_eff (b_funds b)) d
             <= DEC * total_of (Cw20 d) (b_distributed b)).

Lemma paid_amounts_app l1 l2 : paid_amounts (l1 ++ l2) = paid_amounts l1 ++ paid_amounts l2.
Proof. apply map_app. Qed.

Lemma books_step_solvent b c : solvent b -> solvent (books_step b c).
Proof.
  intros (Hok & Hn & Hc). destruct b as [f paid din]. destruct c as [o s coins m]. cbn [b_funds b_paid b_distributed] in *.
  unfold books_step, funds_step. cbn [b_funds b_paid b_distributed fc_oracle fc_sender fc_coins fc_msg].
  destruct (funds_execute o f s coins m) as [[f' ps]|er] eqn:E.
  - destruct (execute_balance _ _ _ _ _ _ _ Hok E) as (H1 & _ & _ & H2 & H3). cbn [fst snd]. split; [exact H1|].
    cbn [b_funds b_paid b_distributed]. split; intros d; rewrite paid_amounts_app, !total_of_app; 
      [specialize (H2 d); specialize (Hn d)|specialize (H3 d); specialize (Hc d)]; lia.
  - cbn [fst snd]. unfold handed_over. cbn [fc_oracle fc_sender fc_coins fc_msg]. rewrite E, !app_nil_r.
    repeat split; auto; apply Hok.
Qed.

Lemma reachable_solvent b : reachable b -> solvent b.
Proof.
  intros (admin & ent & mn & l & f0 & cs & Hi & ->). apply instantiate_ok in Hi.
  destruct Hi as (Hok & _ & _ & _ & Hn & Hc & _). unfold books_run. apply fold_left_inv.
  - intros. apply books_step_solvent. assumption.
  - split; [exact Hok|]. cbn [b_funds b_paid b_distributed]. rewrite Hn, Hc.
    assert (Hp : forall d, potential (mk_rewards oempty oempty) (f_eff f0) d = 0).
    { intros d. unfold potential. apply lsum_zero. intros [u w] _. unfold atoms, glob, idx, pend, ogetN, get_dist, user_dists.
      cbn [r_global r_dists fst snd]. rewrite !oget_empty. cbn [dflt]. rewrite oget_empty. lia. }
    split; intros d; rewrite Hp; unfold total_of, paid_amounts; cbn; lia.
Qed.

Lemma lsum_le_osum {V} (g : N -> V -> N) us : NoDup us -> forall (f : N -> N) m,
  (forall u, f u <= oval g m u) -> lsum f us <= osum g m.
Proof.
  induction us as [|u us IH]; intros Hnd f m H; [unfold lsum; cbn; lia|].
  inversion Hnd as [|? ? Hni Hnd']; subst. rewrite lsum_cons. pose proof (osum_odel g m u) as Hd. specialize (H u) as Hu.
  assert (Hr : lsum f us <= osum g (odel m u)); [|lia].
  rewrite (lsum_ext_in f (fun x => if x =? u then 0 else f x)).
  - apply IH; [exact Hnd'|]. intros x. unfold oval. rewrite oget_odel, (N.eqb_sym u x). destruct (x =? u); [lia|apply H].
  - intros x Hx. destruct (x =? u) eqn:E; [|reflexivity]. exfalso. apply Hni. replace u with x by lia. exact Hx.
Qed.

Lemma sum_amt_potential r eff a us : side_ok r eff -> NoDup us ->
  DEC * lsum (fun u => amt r (ogetN eff u) u a) us <= potential r eff a.
Proof.
  intros Hs Hnd. rewrite <- lsum_mul. unfold potential. apply lsum_le_osum; [exact Hnd|]. intros u.
  unfold oval. destruct (oget eff u) as [w|] eqn:E.
  - unfold ogetN. rewrite E. apply amt_le_atoms.
  - rewrite (absent_amt r eff u a Hs E). lia.
Qed.
