(** Ordered maps: the model of [cw_storage_plus::Map]. Keys are kept strictly increasing, which the
    type guarantees; iteration is in key order. *)
From Verif Require Import Base.
From Coq Require Import Eqdep_dec.

Fixpoint sortedb {V} (l : list (N * V)) : bool :=
  match l with
  | [] => true
  | (k, _) :: t =>
      match t with
      | [] => true
      | (k', _) :: _ => (k <? k') && sortedb t
      end
  end.

Record omap (V : Type) := mk_omap { elems : list (N * V); elems_ok : sortedb elems = true }.
Arguments mk_omap {V} elems elems_ok.
Arguments elems {V} o.
Arguments elems_ok {V} o.

Fixpoint lget {V} (l : list (N * V)) (k : N) : option V :=
  match l with
  | [] => None
  | (k', v) :: t => if k =? k' then Some v else lget t k
  end.

Fixpoint lset {V} (l : list (N * V)) (k : N) (v : V) : list (N * V) :=
  match l with
  | [] => [(k, v)]
  | (k', v') :: t =>
      if k =? k' then (k, v) :: t
      else if k <? k' then (k, v) :: (k', v') :: t
      else (k', v') :: lset t k v
  end.

Fixpoint ldel {V} (l : list (N * V)) (k : N) : list (N * V) :=
  match l with
  | [] => []
  | (k', v') :: t => if k =? k' then t else (k', v') :: ldel t k
  end.

Lemma sortedb_tail {V} (x : N * V) l : sortedb (x :: l) = true -> sortedb l = true.
Proof. destruct x, l as [|[k' v'] t]; cbn; intros H; auto. apply andb_prop in H. tauto. Qed.

Lemma sortedb_gt {V} k (v : V) l k' v' :
  sortedb ((k, v) :: l) = true -> In (k', v') l -> k < k'.
Proof.
  revert k v. induction l as [|[a b] t IH]; intros k v H Hin; [destruct Hin|].
  cbn in H. apply andb_prop in H. destruct H as [H1 H2]. apply N.ltb_lt in H1.
  destruct Hin as [Heq|Hin].
  - inversion Heq; subst; assumption.
  - specialize (IH a b H2 Hin). lia.
Qed.

Lemma sortedb_cons {V} k (v : V) l :
  sortedb l = true -> (forall k' v', In (k', v') l -> k < k') -> sortedb ((k, v) :: l) = true.
Proof.
  intros H Hgt. destruct l as [|[a b] t]; [reflexivity|]. cbn [sortedb].
  apply andb_true_intro. split; [apply N.ltb_lt; eapply Hgt; left; reflexivity | exact H].
Qed.

Lemma In_lset {V} l k (v : V) a b : In (a, b) (lset l k v) -> (a, b) = (k, v) \/ In (a, b) l.
Proof.
  induction l as [|[k' v'] t IH]; cbn [lset]; intros H.
  - destruct H as [H|[]]; auto.
  - destruct (k =? k') eqn:E1; [|destruct (k <? k') eqn:E2].
    + destruct H as [H|H]; [left; auto|right; right; auto].
    + destruct H as [H|H]; [left; auto|right; auto].
    + destruct H as [H|H]; [right; left; auto|]. destruct (IH H); auto. right; right; auto.
Qed.

Lemma In_ldel {V} (l : list (N * V)) k a b : In (a, b) (ldel l k) -> In (a, b) l.
Proof.
  induction l as [|[k' v'] t IH]; cbn [ldel]; intros H; [destruct H|].
  destruct (k =? k') eqn:E1; [right; exact H|].
  destruct H as [H|H]; [left; exact H|right; auto].
Qed.

Lemma lset_ok {V} (l : list (N * V)) k v : sortedb l = true -> sortedb (lset l k v) = true.
Proof.
  induction l as [|[k' v'] t IH]; intros H; [reflexivity|]. cbn [lset].
  pose proof (sortedb_tail _ _ H) as Ht.
  destruct (k =? k') eqn:E1; [|destruct (k <? k') eqn:E2].
  - apply N.eqb_eq in E1; subst. apply sortedb_cons; [assumption|].
    intros a b Hin. eapply sortedb_gt; eassumption.
  - apply N.ltb_lt in E2. apply sortedb_cons; [assumption|].
    intros a b [Heq|Hin]; [inversion Heq; subst; assumption|].
    pose proof (sortedb_gt _ _ _ _ _ H Hin). lia.
  - apply N.eqb_neq in E1. apply N.ltb_ge in E2. apply sortedb_cons; [auto|].
    intros a b Hin. destruct (In_lset _ _ _ _ _ Hin) as [Heq|Hin'].
    + inversion Heq; subst. lia.
    + eapply sortedb_gt; eassumption.
Qed.

Lemma ldel_ok {V} (l : list (N * V)) k : sortedb l = true -> sortedb (ldel l k) = true.
Proof.
  induction l as [|[k' v'] t IH]; intros H; [reflexivity|]. cbn [ldel].
  pose proof (sortedb_tail _ _ H) as Ht.
  destruct (k =? k') eqn:E1; [assumption|].
  apply sortedb_cons; [auto|]. intros a b Hin. apply In_ldel in Hin. eapply sortedb_gt; eassumption.
Qed.

Lemma filter_ok {V} (f : N * V -> bool) l : sortedb l = true -> sortedb (filter f l) = true.
Proof.
  induction l as [|[k' v'] t IH]; intros H; [reflexivity|]. cbn [filter].
  pose proof (sortedb_tail _ _ H) as Ht.
  destruct (f (k', v')); [|auto]. apply sortedb_cons; [auto|].
  intros a b Hin. apply filter_In in Hin. destruct Hin as [Hin _]. eapply sortedb_gt; eassumption.
Qed.

Lemma mapv_ok {V W} (f : N -> V -> W) l :
  sortedb l = true -> sortedb (map (fun kv => (fst kv, f (fst kv) (snd kv))) l) = true.
Proof.
  induction l as [|[k' v'] t IH]; intros H; [reflexivity|]. cbn [map fst snd].
  pose proof (sortedb_tail _ _ H) as Ht. apply sortedb_cons; [auto|].
  intros a b Hin. apply in_map_iff in Hin. destruct Hin as [[a' b'] [Heq Hin]].
  cbn in Heq. inversion Heq; subst. eapply sortedb_gt; eassumption.
Qed.

(** * Operations *)
Definition oempty {V} : omap V := mk_omap [] eq_refl.
(** [may_load] *)
Definition oget {V} (m : omap V) (k : N) : option V := lget (elems m) k.
(** [save] *)
Definition oset {V} (m : omap V) (k : N) (v : V) : omap V :=
  mk_omap (lset (elems m) k v) (lset_ok (elems m) k v (elems_ok m)).
(** [remove] *)
Definition odel {V} (m : omap V) (k : N) : omap V :=
  mk_omap (ldel (elems m) k) (ldel_ok (elems m) k (elems_ok m)).
Definition ofilter {V} (f : N -> V -> bool) (m : omap V) : omap V :=
  mk_omap (filter (fun kv => f (fst kv) (snd kv)) (elems m)) (filter_ok _ _ (elems_ok m)).
Definition omapv {V W} (f : N -> V -> W) (m : omap V) : omap W :=
  mk_omap (map (fun kv => (fst kv, f (fst kv) (snd kv))) (elems m)) (mapv_ok f _ (elems_ok m)).
(** [has] *)
Definition ohas {V} (m : omap V) (k : N) : bool := is_some (oget m k).
Definition okeys {V} (m : omap V) : list N := map fst (elems m).
Definition ovals {V} (m : omap V) : list V := map snd (elems m).
(** [load(k).unwrap_or_default()] for numbers *)
Definition ogetN (m : omap N) (k : N) : N := dflt 0 (oget m k).

Definition of_list {V} (l : list (N * V)) : omap V :=
  fold_left (fun m kv => oset m (fst kv) (snd kv)) l oempty.

(** [range(start_after.map(Bound::exclusive), None, Ascending)] *)
Definition orange {V} (m : omap V) (start_after : option N) : list (N * V) :=
  match start_after with
  | None => elems m
  | Some k => filter (fun kv => k <? fst kv) (elems m)
  end.

(** [.take(limit as usize)] *)
Definition take {A} (n : N) (l : list A) : list A := firstn (N.to_nat n) l.

(** Sums over all entries. *)
Definition lsum {A} (f : A -> N) (l : list A) : N := fold_right (fun a s => f a + s) 0 l.
Definition osum {V} (f : N -> V -> N) (m : omap V) : N :=
  lsum (fun kv => f (fst kv) (snd kv)) (elems m).

Global Arguments oget {V} m k : simpl never.
Global Arguments oset {V} m k v : simpl never.
Global Arguments odel {V} m k : simpl never.
Global Arguments ogetN m k : simpl never.
Global Arguments osum {V} f m : simpl never.
Global Arguments orange {V} m start_after : simpl never.
Global Arguments take {A} n l : simpl never.
