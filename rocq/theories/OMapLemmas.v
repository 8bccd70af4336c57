(** Laws of ordered maps. *)
From Verif Require Import Base OMap.
From Coq Require Import Eqdep_dec Permutation.
From Coq Require Export ZArith ZifyBool ZifyN ZifyNat.
Global Open Scope N_scope.

Lemma lget_In {V} (l : list (N * V)) k v : lget l k = Some v -> In (k, v) l.
Proof.
  induction l as [|[a b] t IH]; cbn [lget]; [discriminate|].
  destruct (k =? a) eqn:E; intros H.
  - apply N.eqb_eq in E. inversion H; subst. left; reflexivity.
  - right; auto.
Qed.

Lemma In_lget {V} (l : list (N * V)) k v : sortedb l = true -> In (k, v) l -> lget l k = Some v.
Proof.
  induction l as [|[a b] t IH]; intros Hs Hin; [destruct Hin|]. cbn [lget].
  destruct Hin as [Heq|Hin].
  - inversion Heq; subst. rewrite N.eqb_refl. reflexivity.
  - pose proof (sortedb_gt _ _ _ _ _ Hs Hin) as Hlt.
    destruct (k =? a) eqn:E; [apply N.eqb_eq in E; lia|].
    apply IH; [eapply sortedb_tail; eassumption | assumption].
Qed.

Lemma lget_none {V} (l : list (N * V)) k : (forall v, ~ In (k, v) l) -> lget l k = None.
Proof.
  intros H. destruct (lget l k) eqn:E; [|reflexivity]. apply lget_In in E. exfalso; eapply H; eauto.
Qed.

Lemma lget_lset_eq {V} (l : list (N * V)) k v : lget (lset l k v) k = Some v.
Proof.
  induction l as [|[a b] t IH]; cbn [lset lget]; [rewrite N.eqb_refl; reflexivity|].
  destruct (k =? a) eqn:E; [|destruct (k <? a)]; cbn [lget].
  - rewrite N.eqb_refl; reflexivity.
  - rewrite N.eqb_refl; reflexivity.
  - rewrite E; exact IH.
Qed.

Lemma lget_lset_ne {V} (l : list (N * V)) k k' v : k <> k' -> lget (lset l k v) k' = lget l k'.
Proof.
  intros Hne. assert (E' : (k' =? k) = false) by (apply N.eqb_neq; congruence).
  induction l as [|[a b] t IH]; cbn [lset lget]; [rewrite E'; reflexivity|].
  destruct (k =? a) eqn:E; [|destruct (k <? a)]; cbn [lget].
  - apply N.eqb_eq in E; subst. rewrite E'. reflexivity.
  - rewrite E'. reflexivity.
  - destruct (k' =? a); [reflexivity|exact IH].
Qed.

Lemma lget_ldel_eq {V} (l : list (N * V)) k : sortedb l = true -> lget (ldel l k) k = None.
Proof.
  induction l as [|[a b] t IH]; intros Hs; cbn [ldel]; [reflexivity|].
  destruct (k =? a) eqn:E.
  - apply N.eqb_eq in E; subst. apply lget_none. intros v Hin.
    pose proof (sortedb_gt _ _ _ _ _ Hs Hin). lia.
  - cbn [lget]. rewrite E. apply IH. eapply sortedb_tail; eassumption.
Qed.

Lemma lget_ldel_ne {V} (l : list (N * V)) k k' : k <> k' -> lget (ldel l k) k' = lget l k'.
Proof.
  intros Hne. induction l as [|[a b] t IH]; cbn [ldel]; [reflexivity|].
  destruct (k =? a) eqn:E; cbn [lget].
  - apply N.eqb_eq in E; subst.
    destruct (k' =? a) eqn:E'; [apply N.eqb_eq in E'; congruence|reflexivity].
  - destruct (k' =? a); [reflexivity|exact IH].
Qed.

Lemma elems_sorted {V} (m : omap V) : sortedb (elems m) = true.
Proof. apply elems_ok. Qed.

Lemma omap_elems_inj {V} (m1 m2 : omap V) : elems m1 = elems m2 -> m1 = m2.
Proof.
  destruct m1 as [l1 p1], m2 as [l2 p2]; cbn; intros <-.
  f_equal. apply UIP_dec. apply bool_dec.
Qed.

Lemma oget_In {V} (m : omap V) k v : oget m k = Some v <-> In (k, v) (elems m).
Proof. split; [apply lget_In | apply In_lget, elems_ok]. Qed.

Lemma oget_empty {V} k : oget (@oempty V) k = None.
Proof. reflexivity. Qed.

Lemma oget_oset_eq {V} (m : omap V) k v : oget (oset m k v) k = Some v.
Proof. apply lget_lset_eq. Qed.
Lemma oget_oset_ne {V} (m : omap V) k k' v : k <> k' -> oget (oset m k v) k' = oget m k'.
Proof. apply lget_lset_ne. Qed.
Lemma oget_oset {V} (m : omap V) k k' v : oget (oset m k v) k' = if k =? k' then Some v else oget m k'.
Proof.
  destruct (k =? k') eqn:E; [apply N.eqb_eq in E; subst; apply oget_oset_eq|].
  apply N.eqb_neq in E. apply oget_oset_ne; assumption.
Qed.
Lemma oget_odel_eq {V} (m : omap V) k : oget (odel m k) k = None.
Proof. apply lget_ldel_eq, elems_ok. Qed.
Lemma oget_odel_ne {V} (m : omap V) k k' : k <> k' -> oget (odel m k) k' = oget m k'.
Proof. apply lget_ldel_ne. Qed.
Lemma oget_odel {V} (m : omap V) k k' : oget (odel m k) k' = if k =? k' then None else oget m k'.
Proof.
  destruct (k =? k') eqn:E; [apply N.eqb_eq in E; subst; apply oget_odel_eq|].
  apply N.eqb_neq in E. apply oget_odel_ne; assumption.
Qed.

Lemma oget_ofilter {V} f (m : omap V) k :
  oget (ofilter f m) k = match oget m k with Some v => if f k v then Some v else None | None => None end.
Proof.
  destruct (oget m k) as [v|] eqn:E.
  - apply oget_In in E. destruct (f k v) eqn:Ef.
    + apply oget_In. cbn. apply filter_In. cbn. auto.
    + destruct (oget (ofilter f m) k) as [w|] eqn:E2; [|reflexivity].
      apply oget_In in E2. cbn in E2. apply filter_In in E2. destruct E2 as [Hin Hf]. cbn in Hf.
      apply oget_In in Hin. apply oget_In in E. congruence.
  - destruct (oget (ofilter f m) k) as [w|] eqn:E2; [|reflexivity].
    apply oget_In in E2. cbn in E2. apply filter_In in E2. destruct E2 as [Hin Hf].
    apply oget_In in Hin. congruence.
Qed.

Lemma oget_omapv {V W} (f : N -> V -> W) (m : omap V) k :
  oget (omapv f m) k = option_map (f k) (oget m k).
Proof.
  unfold oget, omapv; cbn. induction (elems m) as [|[a b] t IH]; cbn [map lget fst snd]; [reflexivity|].
  destruct (k =? a) eqn:E; [|exact IH]. apply N.eqb_eq in E; subst; reflexivity.
Qed.

(** Extensionality. *)
Lemma sorted_ext {V} (l1 l2 : list (N * V)) :
  sortedb l1 = true -> sortedb l2 = true -> (forall k, lget l1 k = lget l2 k) -> l1 = l2.
Proof.
  revert l2. induction l1 as [|[a b] t IH]; intros [|[c d] t2] H1 H2 Hext.
  - reflexivity.
  - specialize (Hext c). cbn in Hext. rewrite N.eqb_refl in Hext. discriminate.
  - specialize (Hext a). cbn in Hext. rewrite N.eqb_refl in Hext. discriminate.
  - assert (Hac : a = c).
    { destruct (N.lt_trichotomy a c) as [Hlt|[Heq|Hlt]]; [|assumption|].
      - pose proof (Hext a) as He. cbn [lget] in He. rewrite N.eqb_refl in He.
        destruct (a =? c) eqn:E; [apply N.eqb_eq in E; lia|]. symmetry in He. apply lget_In in He.
        pose proof (sortedb_gt _ _ _ _ _ H2 He). lia.
      - pose proof (Hext c) as He. cbn [lget] in He. rewrite N.eqb_refl in He.
        destruct (c =? a) eqn:E; [apply N.eqb_eq in E; lia|]. apply lget_In in He.
        pose proof (sortedb_gt _ _ _ _ _ H1 He). lia. }
    subst c. pose proof (Hext a) as He. cbn [lget] in He. rewrite N.eqb_refl in He. inversion He; subst d.
    f_equal. apply IH; [eapply sortedb_tail; eassumption|eapply sortedb_tail; eassumption|].
    intros k. specialize (Hext k). cbn [lget] in Hext. destruct (k =? a) eqn:E; [|exact Hext].
    apply N.eqb_eq in E; subst k.
    rewrite (lget_none t), (lget_none t2); [reflexivity| |].
    + intros v Hin. pose proof (sortedb_gt _ _ _ _ _ H2 Hin). lia.
    + intros v Hin. pose proof (sortedb_gt _ _ _ _ _ H1 Hin). lia.
Qed.

Lemma omap_ext {V} (m1 m2 : omap V) : (forall k, oget m1 k = oget m2 k) -> m1 = m2.
Proof. intros H. apply omap_elems_inj, sorted_ext; [apply elems_ok|apply elems_ok|exact H]. Qed.

Lemma oset_oset {V} (m : omap V) k v w : oset (oset m k v) k w = oset m k w.
Proof. apply omap_ext. intros k'. rewrite !oget_oset. destruct (k =? k'); reflexivity. Qed.

Lemma oset_same {V} (m : omap V) k v : oget m k = Some v -> oset m k v = m.
Proof.
  intros H. apply omap_ext. intros k'. rewrite oget_oset. destruct (k =? k') eqn:E; [|reflexivity].
  apply N.eqb_eq in E; subst; auto.
Qed.

(** Keys *)
Lemma sortedb_NoDup {V} (l : list (N * V)) : sortedb l = true -> NoDup (map fst l).
Proof.
  induction l as [|[a b] t IH]; intros H; cbn; constructor.
  - intros Hin. apply in_map_iff in Hin. destruct Hin as [[c d] [Heq Hin]]. cbn in Heq; subst.
    pose proof (sortedb_gt _ _ _ _ _ H Hin). lia.
  - apply IH. eapply sortedb_tail; eassumption.
Qed.

Lemma okeys_NoDup {V} (m : omap V) : NoDup (okeys m).
Proof. apply sortedb_NoDup, elems_ok. Qed.

Lemma okeys_In {V} (m : omap V) k : In k (okeys m) <-> exists v, oget m k = Some v.
Proof.
  unfold okeys. rewrite in_map_iff. split.
  - intros [[a b] [Heq Hin]]. cbn in Heq; subst. exists b. apply oget_In; assumption.
  - intros [v Hv]. exists (k, v). split; [reflexivity|]. apply oget_In; assumption.
Qed.

Lemma elems_NoDup {V} (m : omap V) : NoDup (elems m).
Proof. apply (NoDup_map_inv fst), okeys_NoDup. Qed.

Lemma ohas_true {V} (m : omap V) k : ohas m k = true <-> exists v, oget m k = Some v.
Proof.
  unfold ohas. destruct (oget m k); cbn; split; intros H; try discriminate; eauto.
  destruct H; discriminate.
Qed.

(** Sums *)
Lemma lsum_app {A} (f : A -> N) l1 l2 : lsum f (l1 ++ l2) = lsum f l1 + lsum f l2.
Proof. induction l1 as [|a t IH]; cbn [lsum fold_right app] in *; unfold lsum in *; cbn; lia. Qed.

Lemma lsum_cons {A} (f : A -> N) a l : lsum f (a :: l) = f a + lsum f l.
Proof. reflexivity. Qed.

Lemma lsum_ext_in {A} (f g : A -> N) l : (forall a, In a l -> f a = g a) -> lsum f l = lsum g l.
Proof.
  induction l as [|a t IH]; intros H; [reflexivity|]. rewrite !lsum_cons.
  rewrite (H a (or_introl eq_refl)), IH; [reflexivity|]. intros; apply H; right; assumption.
Qed.

Lemma lsum_le_in {A} (f g : A -> N) l : (forall a, In a l -> f a <= g a) -> lsum f l <= lsum g l.
Proof.
  induction l as [|a t IH]; intros H; [reflexivity|]. rewrite !lsum_cons.
  pose proof (H a (or_introl eq_refl)). assert (lsum f t <= lsum g t) by (apply IH; intros; apply H; right; assumption).
  lia.
Qed.

Lemma lsum_map {A B} (f : B -> N) (g : A -> B) l : lsum f (map g l) = lsum (fun a => f (g a)) l.
Proof. induction l as [|a t IH]; [reflexivity|]. cbn [map]. rewrite !lsum_cons, IH. reflexivity. Qed.

Lemma lsum_add {A} (f g : A -> N) l : lsum (fun a => f a + g a) l = lsum f l + lsum g l.
Proof. induction l as [|a t IH]; [reflexivity|]. rewrite !lsum_cons, IH. lia. Qed.

Lemma lsum_mul {A} (f : A -> N) c l : lsum (fun a => c * f a) l = c * lsum f l.
Proof. induction l as [|a t IH]; [cbn; lia|]. rewrite !lsum_cons, IH. lia. Qed.

Lemma lsum_zero {A} (f : A -> N) l : (forall a, In a l -> f a = 0) -> lsum f l = 0.
Proof.
  induction l as [|a t IH]; intros H; [reflexivity|]. rewrite lsum_cons, (H a (or_introl eq_refl)), IH; [reflexivity|].
  intros; apply H; right; assumption.
Qed.

Lemma lsum_perm {A} (f : A -> N) l1 l2 : Permutation l1 l2 -> lsum f l1 = lsum f l2.
Proof. induction 1; rewrite ?lsum_cons; lia. Qed.

Lemma lsum_In_le {A} (f : A -> N) l a : In a l -> f a <= lsum f l.
Proof.
  induction l as [|b t IH]; intros Hin; [destruct Hin|]. rewrite lsum_cons.
  destruct Hin as [->|Hin]; [lia|]. specialize (IH Hin). lia.
Qed.

Lemma lsum_filter {A} (f : A -> N) p l : lsum f (filter p l) = lsum (fun a => if p a then f a else 0) l.
Proof.
  induction l as [|a t IH]; [reflexivity|]. cbn [filter]. rewrite lsum_cons.
  destruct (p a); rewrite ?lsum_cons, IH; lia.
Qed.

Definition oval {V} (f : N -> V -> N) (m : omap V) (k : N) : N :=
  match oget m k with Some v => f k v | None => 0 end.

Lemma osum_oset {V} (f : N -> V -> N) (m : omap V) k v :
  osum f (oset m k v) + oval f m k = osum f m + f k v.
Proof.
  unfold osum, oval, oget, oset; cbn [elems]. pose proof (elems_ok m) as Hs.
  induction (elems m) as [|[a b] t IH]; cbn [lset lget]; [cbn; lia|].
  pose proof (sortedb_tail _ _ Hs) as Ht. specialize (IH Ht).
  destruct (k =? a) eqn:E.
  - apply N.eqb_eq in E; subst. rewrite !lsum_cons; cbn [fst snd]. lia.
  - destruct (k <? a) eqn:E2.
    + rewrite !lsum_cons; cbn [fst snd]. rewrite (lget_none t); [lia|].
      intros w Hin. pose proof (sortedb_gt _ _ _ _ _ Hs Hin). apply N.ltb_lt in E2. lia.
    + rewrite !lsum_cons; cbn [fst snd]. lia.
Qed.

Lemma osum_odel {V} (f : N -> V -> N) (m : omap V) k :
  osum f (odel m k) + oval f m k = osum f m.
Proof.
  unfold osum, oval, oget, odel; cbn [elems].
  induction (elems m) as [|[a b] t IH]; cbn [ldel lget]; [reflexivity|].
  destruct (k =? a) eqn:E; rewrite !lsum_cons; cbn [fst snd]; [|lia].
  apply N.eqb_eq in E; subst. lia.
Qed.

Lemma osum_empty {V} (f : N -> V -> N) : osum f oempty = 0.
Proof. reflexivity. Qed.

Lemma osum_ext {V} (f g : N -> V -> N) (m : omap V) :
  (forall k v, oget m k = Some v -> f k v = g k v) -> osum f m = osum g m.
Proof.
  intros H. apply lsum_ext_in. intros [k v] Hin. cbn. apply H, oget_In, Hin.
Qed.

Lemma osum_le {V} (f g : N -> V -> N) (m : omap V) :
  (forall k v, oget m k = Some v -> f k v <= g k v) -> osum f m <= osum g m.
Proof.
  intros H. apply lsum_le_in. intros [k v] Hin. cbn. apply H, oget_In, Hin.
Qed.

Lemma osum_add {V} (f g : N -> V -> N) (m : omap V) :
  osum (fun k v => f k v + g k v) m = osum f m + osum g m.
Proof. apply (lsum_add (fun kv => f (fst kv) (snd kv)) (fun kv => g (fst kv) (snd kv))). Qed.

Lemma osum_mul {V} (f : N -> V -> N) c (m : omap V) :
  osum (fun k v => c * f k v) m = c * osum f m.
Proof. apply (lsum_mul (fun kv => f (fst kv) (snd kv))). Qed.

Lemma osum_omapv {V W} (g : N -> V -> W) (f : N -> W -> N) (m : omap V) :
  osum f (omapv g m) = osum (fun k v => f k (g k v)) m.
Proof. unfold osum, omapv; cbn [elems]. rewrite lsum_map. reflexivity. Qed.

Lemma oval_le {V} (f : N -> V -> N) (m : omap V) k : oval f m k <= osum f m.
Proof. pose proof (osum_odel f m k). lia. Qed.

Lemma ogetN_oset m k k' v : ogetN (oset m k v) k' = if k =? k' then v else ogetN m k'.
Proof. unfold ogetN. rewrite oget_oset. destruct (k =? k'); reflexivity. Qed.
Lemma ogetN_oset_eq m k v : ogetN (oset m k v) k = v.
Proof. unfold ogetN. rewrite oget_oset_eq. reflexivity. Qed.
Lemma ogetN_oset_ne m k k' v : k <> k' -> ogetN (oset m k v) k' = ogetN m k'.
Proof. intros. unfold ogetN. rewrite oget_oset_ne; auto. Qed.
Lemma ogetN_odel m k k' : ogetN (odel m k) k' = if k =? k' then 0 else ogetN m k'.
Proof. unfold ogetN. rewrite oget_odel. destruct (k =? k'); reflexivity. Qed.
Lemma oval_ogetN m k : oval (fun _ v => v) m k = ogetN m k.
Proof. unfold oval, ogetN. destruct (oget m k); reflexivity. Qed.

(** Ranges *)
Lemma orange_In {V} (m : omap V) st k v :
  In (k, v) (orange m st) <-> oget m k = Some v /\ (match st with Some s => s < k | None => True end).
Proof.
  unfold orange. destruct st as [s|].
  - rewrite filter_In, oget_In. cbn. rewrite N.ltb_lt. tauto.
  - rewrite oget_In. tauto.
Qed.

Lemma orange_sorted {V} (m : omap V) st : sortedb (orange m st) = true.
Proof. destruct st; [apply filter_ok|]; apply elems_ok. Qed.

(** [bind] inversion *)
Lemma bind_ok {A B} (r : res A) (f : A -> res B) b :
  bind r f = Ok b -> exists a, r = Ok a /\ f a = Ok b.
Proof. destruct r; cbn; intros H; [eauto|discriminate]. Qed.

Lemma guard_ok b e u : guard b e = Ok u -> b = true.
Proof. destruct b; [reflexivity|discriminate]. Qed.

Lemma ok_or_ok {A} (o : option A) e a : ok_or o e = Ok a -> o = Some a.
Proof. destruct o; cbn; congruence. Qed.

Lemma addr_validate_ok a b : addr_validate a = Ok b -> a = b /\ b <> 0.
Proof. unfold addr_validate. destruct (a =? 0) eqn:E; [discriminate|]. apply N.eqb_neq in E. intros H; inversion H; subst; auto. Qed.

Lemma uint_add_ok a b c : uint_add a b = Ok c -> c = a + b /\ a + b < M128.
Proof. unfold uint_add. destruct (a + b <? M128) eqn:E; [|discriminate]. apply N.ltb_lt in E. intros H; inversion H; auto. Qed.
Lemma uint_sub_ok a b c : uint_sub a b = Ok c -> c = a - b /\ b <= a.
Proof. unfold uint_sub. destruct (b <=? a) eqn:E; [|discriminate]. apply N.leb_le in E. intros H; inversion H; auto. Qed.
Lemma uint64_add_ok a b c : uint64_add a b = Ok c -> c = a + b /\ a + b < M64.
Proof. unfold uint64_add. destruct (a + b <? M64) eqn:E; [|discriminate]. apply N.ltb_lt in E. intros H; inversion H; auto. Qed.
Lemma uint_cadd_ok a b c : uint_cadd a b = Ok c -> c = a + b /\ a + b < M128.
Proof. unfold uint_cadd. destruct (a + b <? M128) eqn:E; [|discriminate]. apply N.ltb_lt in E. intros H; inversion H; auto. Qed.
Lemma uint_csub_ok a b c : uint_csub a b = Ok c -> c = a - b /\ b <= a.
Proof. unfold uint_csub. destruct (b <=? a) eqn:E; [|discriminate]. apply N.leb_le in E. intros H; inversion H; auto. Qed.

Lemma fold_res_app {A S} (f : S -> A -> res S) s l1 l2 :
  fold_res f s (l1 ++ l2) = bind (fold_res f s l1) (fun s' => fold_res f s' l2).
Proof.
  revert s. induction l1 as [|a t IH]; intros s; cbn [fold_res app]; [reflexivity|].
  destruct (f s a); cbn; [apply IH|reflexivity].
Qed.

(** Induction principle for loops: an invariant kept by each successful iteration. *)
Lemma fold_res_inv {A S} (P : S -> Prop) (f : S -> A -> res S) l :
  (forall s a s', In a l -> P s -> f s a = Ok s' -> P s') ->
  forall s s', P s -> fold_res f s l = Ok s' -> P s'.
Proof.
  induction l as [|a t IH]; intros Hstep s s' HP H; cbn in H.
  - inversion H; subst; assumption.
  - apply bind_ok in H. destruct H as [s1 [H1 H2]].
    apply (IH (fun s a s' Hin => Hstep s a s' (or_intror Hin)) s1 s'); [|assumption].
    eapply Hstep; [left; reflexivity|exact HP|exact H1].
Qed.

Ltac bind_inv H :=
  repeat match type of H with
  | bind ?r ?f = Ok _ =>
      let a := fresh "x" in let H1 := fresh "Hb" in
      apply bind_ok in H; destruct H as [a [H1 H]]; cbv beta in H
  | guard ?b ?e = Ok _ => apply guard_ok in H
  end.

(** Unfold the facts behind successful checks and checked arithmetic. *)
Ltac clean :=
  repeat match goal with
  | H : Ok _ = Ok _ |- _ => inversion H; clear H; subst
  | H : Err _ = Ok _ |- _ => discriminate H
  | H : guard _ _ = Ok _ |- _ => apply guard_ok in H
  | H : ok_or _ _ = Ok _ |- _ => apply ok_or_ok in H
  | H : addr_validate _ = Ok _ |- _ => let E := fresh in apply addr_validate_ok in H; destruct H as [E H]; symmetry in E; subst
  | H : uint_add _ _ = Ok _ |- _ => let E1 := fresh "Heq" in let E2 := fresh "Hcl" in apply uint_add_ok in H; destruct H as [E1 E2]; subst
  | H : uint_sub _ _ = Ok _ |- _ => let E1 := fresh "Heq" in let E2 := fresh "Hcl" in apply uint_sub_ok in H; destruct H as [E1 E2]; subst
  | H : uint64_add _ _ = Ok _ |- _ => let E1 := fresh "Heq" in let E2 := fresh "Hcl" in apply uint64_add_ok in H; destruct H as [E1 E2]; subst
  | H : uint_cadd _ _ = Ok _ |- _ => let E1 := fresh "Heq" in let E2 := fresh "Hcl" in apply uint_cadd_ok in H; destruct H as [E1 E2]; subst
  | H : uint_csub _ _ = Ok _ |- _ => let E1 := fresh "Heq" in let E2 := fresh "Hcl" in apply uint_csub_ok in H; destruct H as [E1 E2]; subst
  end.

(** [bind_inv], through pairs as well. *)
Ltac binv H :=
  repeat match type of H with
  | bind ?r ?f = Ok _ =>
      let a := fresh "x" in let H1 := fresh "Hb" in
      apply bind_ok in H; destruct H as [a [H1 H]]; cbv beta in H
  | (let '(_, _) := ?x in _) = Ok _ => let a := fresh "x" in let b := fresh "x" in destruct x as [a b]
  | guard ?b ?e = Ok _ => apply guard_ok in H
  end.

Lemma M128_pos : 0 < M128. Proof. reflexivity. Qed.
Lemma M64_pos : 0 < M64. Proof. reflexivity. Qed.
Global Opaque M128 M64.

Lemma osum_change {V} (f f' : N -> V -> N) (m : omap V) k v :
  (forall k' v', k' <> k -> f' k' v' = f k' v') ->
  osum f' (oset m k v) + oval f m k = osum f m + f' k v.
Proof.
  intros H. pose proof (osum_odel f m k) as H1. pose proof (osum_oset f' (odel m k) k v) as H2.
  assert (Hd : oset (odel m k) k v = oset m k v).
  { apply omap_ext. intros k'. rewrite !oget_oset, oget_odel. destruct (k =? k'); reflexivity. }
  rewrite Hd in H2. assert (Ho : oval f' (odel m k) k = 0) by (unfold oval; rewrite oget_odel_eq; reflexivity).
  assert (He : osum f' (odel m k) = osum f (odel m k)).
  { apply osum_ext. intros k' v' Hk. apply H. intros ->. rewrite oget_odel_eq in Hk. discriminate. }
  lia.
Qed.

Lemma fold_left_inv {A S} (P : S -> Prop) (f : S -> A -> S) l :
  (forall s a, P s -> P (f s a)) -> forall s, P s -> P (fold_left f l s).
Proof. intros H. induction l as [|a t IH]; intros s Hs; cbn; auto. Qed.

Lemma is_some_true {A} (o : option A) : is_some o = true <-> exists a, o = Some a.
Proof. destruct o; cbn; split; intros H; eauto; [discriminate|destruct H; discriminate]. Qed.
