(** Lemmas about the treasury. *)
From Verif Require Import Base OMap OMapLemmas Assets FundsModel FundsProofs MemberModel Msgs TreasuryModel TreasurySpec.
From Coq Require Import Sorting.Sorted.

(** ** Lists in order *)

Lemma filter_all {A} (f : A -> bool) l : (forall x, In x l -> f x = true) -> filter f l = l.
Proof.
  induction l as [|a t IH]; intros H; cbn; [reflexivity|].
  rewrite (H a (or_introl eq_refl)), IH; [reflexivity|]. intros x Hx. apply H. right. exact Hx.
Qed.

Lemma filter_none {A} (f : A -> bool) l : (forall x, In x l -> f x = false) -> filter f l = [].
Proof.
  induction l as [|a t IH]; intros H; cbn; [reflexivity|].
  rewrite (H a (or_introl eq_refl)). apply IH. intros x Hx. apply H. right. exact Hx.
Qed.

Lemma filter_after {A} (lt : A -> A -> bool) (l : list A) :
  (forall a, lt a a = false) -> (forall a b, lt a b = true -> lt b a = false) ->
  StronglySorted (fun a b => lt a b = true) l ->
  forall i a, nth_error l i = Some a -> filter (lt a) l = skipn (S i) l.
Proof.
  intros Hir Has. induction 1 as [|x t Hs IH Hf]; intros i a Hn; [destruct i; discriminate|].
  destruct i as [|i]; cbn [nth_error] in Hn.
  - inversion Hn; subst. cbn [filter skipn]. rewrite Hir. apply filter_all.
    intros y Hy. rewrite Forall_forall in Hf. apply Hf. exact Hy.
  - cbn [filter skipn]. rewrite Forall_forall in Hf.
    rewrite (Has x a) by (apply Hf; eapply nth_error_In; eassumption). apply IH. exact Hn.
Qed.

Lemma sorted_strong {V} (l : list (N * V)) : sortedb l = true -> StronglySorted (fun a b : N * V => (fst a <? fst b) = true) l.
Proof.
  induction l as [|[k v] t IH]; intros H; constructor.
  - apply IH. eapply sortedb_tail. eassumption.
  - apply Forall_forall. intros [k' v'] Hin. cbn. apply N.ltb_lt. eapply sortedb_gt; eassumption.
Qed.

Lemma orange_skip {V} (m : omap V) i k v :
  nth_error (elems m) i = Some (k, v) -> orange m (Some k) = skipn (S i) (elems m).
Proof.
  intros H. unfold orange.
  apply (filter_after (fun a b : N * V => fst a <? fst b) (elems m)) with (a := (k, v)).
  - intros. apply N.ltb_irrefl.
  - intros a b Hab. lia.
  - apply sorted_strong, elems_sorted.
  - exact H.
Qed.

Definition pair_lt (a b : N * N) : bool := (fst a <? fst b) || ((fst a =? fst b) && (snd a <? snd b)).

Lemma strong_app {A} (R : A -> A -> Prop) l1 l2 :
  StronglySorted R l1 -> StronglySorted R l2 -> (forall a b, In a l1 -> In b l2 -> R a b) -> StronglySorted R (l1 ++ l2).
Proof.
  induction 1 as [|x t Hs IH Hf]; intros H2 H; cbn; [assumption|]. constructor.
  - apply IH; [assumption|]. intros a b Ha Hb. apply H; [right|]; assumption.
  - apply Forall_app. split; [assumption|]. apply Forall_forall. intros b Hb. apply H; [left; reflexivity|assumption].
Qed.

Lemma strong_map {A B} (R : A -> A -> Prop) (S : B -> B -> Prop) (f : A -> B) l :
  (forall a b, R a b -> S (f a) (f b)) -> StronglySorted R l -> StronglySorted S (map f l).
Proof.
  intros H. induction 1 as [|x t Hs IH Hf]; cbn; constructor; [assumption|].
  apply Forall_forall. intros y Hy. apply in_map_iff in Hy. destruct Hy as (a & <- & Ha).
  apply H. rewrite Forall_forall in Hf. apply Hf. exact Ha.
Qed.

Lemma cw1155_sorted t : StronglySorted (fun a b => pair_lt a b = true) (cw1155_list t).
Proof.
  unfold cw1155_list. pose proof (sorted_strong _ (elems_sorted (tr_cw1155s t))) as H.
  induction H as [|[c m] l Hs IH Hf]; cbn [flat_map]; [constructor|].
  apply strong_app.
  - cbn [fst snd]. unfold okeys. rewrite map_map.
    apply strong_map with (R := fun a b : N * unit => (fst a <? fst b) = true); [|apply sorted_strong, elems_sorted].
    intros a b Hab. unfold pair_lt. cbn [fst snd]. lia.
  - exact IH.
  - intros a b Ha Hb. apply in_map_iff in Ha. destruct Ha as (i & <- & Hi).
    apply in_flat_map in Hb. destruct Hb as ([c' m'] & Hin & Hb). apply in_map_iff in Hb. destruct Hb as (j & <- & Hj).
    rewrite Forall_forall in Hf. specialize (Hf _ Hin). unfold pair_lt. cbn [fst snd] in *. lia.
Qed.

Lemma cw1155_In t c i : In (c, i) (cw1155_list t) <-> listed t (Cw1155 c i).
Proof.
  unfold cw1155_list. rewrite in_flat_map. cbn [listed]. split.
  - intros ([c' m] & Hin & H). apply in_map_iff in H. destruct H as (j & E & Hj). cbn [fst snd] in *. inversion E; subst.
    apply oget_In in Hin. exists m. split; [exact Hin|]. apply okeys_In in Hj. destruct Hj as ([] & Hj). exact Hj.
  - intros (m & Hc & Hi). exists (c, m). split; [apply oget_In; exact Hc|]. cbn [fst snd].
    apply in_map_iff. exists i. split; [reflexivity|]. apply okeys_In. exists tt. exact Hi.
Qed.

(** ** Paging *)

Definition all_assets (t : treasury) : list asset :=
  map (fun x : N * unit => Native (fst x)) (elems (tr_natives t)) ++
  map (fun x : N * unit => Cw20 (fst x)) (elems (tr_cw20s t)) ++
  map (fun k : N * N => Cw1155 (fst k) (snd k)) (cw1155_list t).

Lemma chain {A} (l rest : list A) n (f : N -> list A) :
  (forall k, f k = take k rest) ->
  (let l' := take n l in let m := N.of_nat (length l') in if m <? n then l' ++ f (n - m) else l') = take n (l ++ rest).
Proof.
  intros H. cbv zeta. unfold take in *. rewrite firstn_app, firstn_length.
  destruct (N.of_nat (Nat.min (N.to_nat n) (length l)) <? n) eqn:E.
  - rewrite H. f_equal. f_equal. lia.
  - replace (N.to_nat n - length l)%nat with O by lia. rewrite firstn_O, app_nil_r. reflexivity.
Qed.

Lemma take_map {A B} (f : A -> B) n l : take n (map f l) = map f (take n l).
Proof. unfold take. apply firstn_map. Qed.

Lemma from_cw1155 t n : assets_from_cw1155 t None n = take n (map (fun k : N * N => Cw1155 (fst k) (snd k)) (cw1155_list t)).
Proof. unfold assets_from_cw1155. rewrite filter_all by reflexivity. symmetry. apply take_map. Qed.

Lemma from_cw20 t st n :
  assets_from_cw20 t st n =
  take n (map (fun x : N * unit => Cw20 (fst x)) (orange (tr_cw20s t) st) ++
          map (fun k : N * N => Cw1155 (fst k) (snd k)) (cw1155_list t)).
Proof.
  unfold assets_from_cw20. rewrite <- take_map. apply chain. intros k. apply from_cw1155.
Qed.

Lemma from_native t st n :
  assets_from_native t st n =
  take n (map (fun x : N * unit => Native (fst x)) (orange (tr_natives t) st) ++
          map (fun x : N * unit => Cw20 (fst x)) (elems (tr_cw20s t)) ++
          map (fun k : N * N => Cw1155 (fst k) (snd k)) (cw1155_list t)).
Proof.
  unfold assets_from_native. rewrite <- take_map. apply chain. intros k. rewrite from_cw20. reflexivity.
Qed.

Lemma all_assets_In t a : In a (all_assets t) <-> listed t a.
Proof.
  unfold all_assets. rewrite !in_app_iff, !in_map_iff. destruct a as [d|c|c i]; cbn [listed].
  - split.
    + intros [H|[H|H]]; destruct H as (x & E & H); inversion E; subst.
      destruct x as [d []]. apply oget_In in H. exact H.
    + intros H. left. exists (d, tt). split; [reflexivity|]. apply oget_In. exact H.
  - split.
    + intros [H|[H|H]]; destruct H as (x & E & H); inversion E; subst.
      destruct x as [d []]. apply oget_In in H. exact H.
    + intros H. right. left. exists (c, tt). split; [reflexivity|]. apply oget_In. exact H.
  - split.
    + intros [H|[H|H]]; destruct H as (x & E & H); inversion E; subst.
      destruct x as [d j]. apply cw1155_In. exact H.
    + intros H. right. right. exists (c, i). split; [reflexivity|]. apply cw1155_In. exact H.
Qed.

Lemma NoDup_app {A} (l1 l2 : list A) : NoDup l1 -> NoDup l2 -> (forall x, In x l1 -> ~ In x l2) -> NoDup (l1 ++ l2).
Proof.
  induction 1 as [|a t Hn Hd IH]; intros H2 H; cbn; [assumption|]. constructor.
  - rewrite in_app_iff. intros [Hi|Hi]; [contradiction|]. apply (H a); [left; reflexivity|assumption].
  - apply IH; [assumption|]. intros x Hx. apply H. right. exact Hx.
Qed.

Lemma NoDup_map_inj {A B} (f : A -> B) l : (forall a b, In a l -> In b l -> f a = f b -> a = b) -> NoDup l -> NoDup (map f l).
Proof.
  intros H. induction 1 as [|a t Hn Hd IH]; cbn; constructor.
  - intros Hi. apply in_map_iff in Hi. destruct Hi as (b & E & Hb). apply Hn.
    rewrite (H a b); [exact Hb|left; reflexivity|right; exact Hb|symmetry; exact E].
  - apply IH. intros x y Hx Hy. apply H; right; assumption.
Qed.

Lemma strong_NoDup {A} (R : A -> A -> Prop) l : (forall a, ~ R a a) -> StronglySorted R l -> NoDup l.
Proof.
  intros H. induction 1 as [|a t Hs IH Hf]; constructor; [|assumption].
  intros Hi. rewrite Forall_forall in Hf. apply (H a). apply Hf. exact Hi.
Qed.

Lemma all_assets_NoDup t : NoDup (all_assets t).
Proof.
  unfold all_assets. apply NoDup_app; [| apply NoDup_app |].
  - apply NoDup_map_inj; [|apply elems_NoDup]. intros [a []] [b []] _ _ E. inversion E. reflexivity.
  - apply NoDup_map_inj; [|apply elems_NoDup]. intros [a []] [b []] _ _ E. inversion E. reflexivity.
  - apply NoDup_map_inj; [|].
    + intros [a i] [b j] _ _ E. inversion E. reflexivity.
    + eapply strong_NoDup; [|apply cw1155_sorted]. intros a. cbn beta. unfold pair_lt. lia.
  - intros x Hx Hy. apply in_map_iff in Hx, Hy. destruct Hx as (? & <- & _), Hy as (? & E & _). discriminate.
  - intros x Hx. rewrite in_app_iff. intros Hy. apply in_map_iff in Hx. destruct Hx as (? & <- & _).
    destruct Hy as [Hy|Hy]; apply in_map_iff in Hy; destruct Hy as (? & E & _); discriminate.
Qed.

Lemma skipn_plus {A} n (l1 l2 : list A) : skipn (length l1 + n) (l1 ++ l2) = skipn n l2.
Proof. induction l1; cbn; auto. Qed.

Lemma skipn_twice {A} i n (l : list A) : skipn (i + n) l = skipn n (skipn i l).
Proof. revert l. induction i as [|i IH]; intros l; [reflexivity|]. destruct l; cbn [Nat.add skipn]; [destruct n; reflexivity|apply IH]. Qed.

Lemma skipn_in {A} n (l1 l2 : list A) : (n <= length l1)%nat -> skipn n (l1 ++ l2) = skipn n l1 ++ l2.
Proof. intros H. rewrite skipn_app. replace (n - length l1)%nat with O by lia. reflexivity. Qed.

Lemma listed_addr t a : lists_ok t -> listed t a -> check_asset a = Ok a.
Proof.
  intros (H1 & H2 & _) H. destruct a as [d|c|c i]; cbn [check_asset listed] in *; [reflexivity| |].
  - unfold addr_validate. destruct (c =? 0) eqn:E; [|reflexivity]. apply N.eqb_eq in E. subst. congruence.
  - destruct H as (m & H & _). unfold addr_validate. destruct (c =? 0) eqn:E; [|reflexivity]. apply N.eqb_eq in E. subst. congruence.
Qed.

Lemma map_nth_error' {A B} (f : A -> B) l i b : nth_error (map f l) i = Some b -> exists a, nth_error l i = Some a /\ b = f a.
Proof.
  revert i. induction l as [|x t IH]; intros [|i] H; cbn in *; try discriminate.
  - inversion H. eauto.
  - apply IH. exact H.
Qed.

Lemma query_pages t limit : lists_ok t ->
  pages_of (all_assets t) (N.to_nat (query_limit limit)) (fun start => query_asset_whitelist t start limit).
Proof.
  intros Hok. set (n := query_limit limit). split.
  - unfold query_asset_whitelist. rewrite from_native. reflexivity.
  - intros i a Hn. assert (Hl : listed t a) by (apply all_assets_In; eapply nth_error_In; exact Hn).
    pose proof (listed_addr t a Hok Hl) as Hv. unfold query_asset_whitelist. fold n.
    unfold all_assets in *. set (A := map _ (elems (tr_natives t))) in *. set (B := map _ (elems (tr_cw20s t))) in *.
    set (C := map _ (cw1155_list t)) in *.
    destruct (Nat.lt_ge_cases i (length A)) as [Hi|Hi].
    + rewrite nth_error_app1 in Hn by assumption. apply map_nth_error' in Hn. destruct Hn as ([d []] & Hn & ->). cbn [fst].
      rewrite from_native. unfold take. do 2 f_equal. rewrite skipn_in by (unfold A in *; lia).
      rewrite (orange_skip _ i d tt Hn). unfold A. rewrite skipn_map. reflexivity.
    + rewrite nth_error_app2 in Hn by assumption. replace (S i) with (length A + S (i - length A))%nat by lia.
      rewrite skipn_plus. set (j := (i - length A)%nat) in *. clearbody j.
      destruct (Nat.lt_ge_cases j (length B)) as [Hj|Hj].
      * rewrite nth_error_app1 in Hn by assumption. apply map_nth_error' in Hn. destruct Hn as ([c []] & Hn & ->).
        cbn [fst check_asset] in *. destruct (addr_validate c) eqn:Ev; [|discriminate]. inversion Hv; subst. cbn [bind].
        rewrite from_cw20. unfold take. do 2 f_equal. rewrite skipn_in by lia.
        unfold addr in *. rewrite (orange_skip _ j _ tt Hn). unfold B. rewrite skipn_map. reflexivity.
      * rewrite nth_error_app2 in Hn by assumption. replace (S j) with (length B + S (j - length B))%nat by lia.
        rewrite skipn_plus. set (k := (j - length B)%nat) in *. clearbody k.
        apply map_nth_error' in Hn. destruct Hn as ([c x] & Hn & ->).
        cbn [fst snd check_asset] in *. destruct (addr_validate c) eqn:Ev; [|discriminate]. inversion Hv; subst. cbn [bind].
        unfold assets_from_cw1155. rewrite <- take_map. unfold take. do 2 f_equal.
        cbv zeta. change (fun k0 : N * N => _) with (pair_lt (c, x)) at 2.
        rewrite (filter_after pair_lt _ (fun a => ltac:(unfold pair_lt; lia)) (fun a b H => ltac:(unfold pair_lt in *; lia)) (cw1155_sorted t) k _ Hn).
        unfold C. rewrite skipn_map. reflexivity.
Qed.

Lemma nft_pages t limit : lists_ok t ->
  pages_of (okeys (tr_nfts t)) (N.to_nat (query_limit limit)) (fun start => query_nft_whitelist t start limit).
Proof.
  intros (_ & _ & H0). split.
  - unfold query_nft_whitelist, okeys. cbn [orange]. unfold take. rewrite firstn_map. reflexivity.
  - intros i a Hn. unfold query_nft_whitelist, okeys in *. apply map_nth_error' in Hn. destruct Hn as ([k []] & Hn & ->). cbn [fst].
    unfold addr_validate. destruct (k =? 0) eqn:E.
    { apply N.eqb_eq in E. subst. apply nth_error_In in Hn. apply oget_In in Hn. congruence. }
    cbn [bind]. unfold addr in *. rewrite (orange_skip _ i _ tt Hn). unfold take. rewrite skipn_map, firstn_map. reflexivity.
Qed.

Lemma last_some {A} (l : list A) : l <> [] -> exists a, last (map Some l) None = Some a /\ nth_error l (length l - 1) = Some a.
Proof.
  induction l as [|x t IH]; intros H; [contradiction|]. destruct t as [|y t].
  - exists x. split; reflexivity.
  - destruct IH as (a & Ha & Hn); [discriminate|]. exists a. split; [exact Ha|].
    cbn [length]. replace (S (S (length t)) - 1)%nat with (S (length (y :: t) - 1)) by (cbn; lia). exact Hn.
Qed.

Lemma read_all {A} (W : list A) k page : (0 < k)%nat -> pages_of W k page ->
  forall fuel i, (length W - i < fuel)%nat ->
  forall start, page start = Ok (firstn k (skipn i W)) -> read_pages fuel page start = Ok (skipn i W).
Proof.
  intros Hk Hp. induction fuel as [|n IH]; intros i Hf start Hs; [lia|].
  cbn [read_pages]. rewrite Hs. cbn [bind].
  destruct (firstn k (skipn i W)) as [|x l] eqn:E.
  - destruct (skipn i W); [reflexivity|]. destruct k; [lia|discriminate].
  - rewrite <- E. assert (Hne : firstn k (skipn i W) <> []) by (rewrite E; discriminate).
    destruct (last_some _ Hne) as (a & Ha & Hn). rewrite Ha.
    set (len := length (firstn k (skipn i W))) in *.
    assert (Hlen : (0 < len)%nat) by (unfold len; rewrite E; cbn; lia).
    assert (Hle : (len <= length W - i)%nat) by (unfold len; rewrite firstn_length, skipn_length; lia).
    assert (Hw : nth_error W (i + (len - 1)) = Some a).
    { rewrite <- (firstn_skipn i W) at 1. rewrite nth_error_app2 by (rewrite firstn_length; lia).
      rewrite firstn_length. replace (i + (len - 1) - Nat.min i (length W))%nat with (len - 1)%nat by lia.
      rewrite <- (firstn_skipn k (skipn i W)). rewrite nth_error_app1 by (fold len; lia). exact Hn. }
    pose proof (proj2 Hp _ _ Hw) as Hnext. replace (S (i + (len - 1))) with (i + len)%nat in Hnext by lia.
    rewrite (IH (i + len)%nat ltac:(lia) _ Hnext). cbn [bind]. f_equal.
    transitivity (firstn len (skipn i W) ++ skipn len (skipn i W)).
    + f_equal.
      * unfold len. rewrite firstn_length.
        destruct (Nat.le_ge_cases k (length (skipn i W))) as [H|H].
        -- rewrite Nat.min_l by assumption. reflexivity.
        -- rewrite Nat.min_r by assumption. rewrite firstn_all. apply firstn_all2. assumption.
      * apply skipn_twice.
    + apply firstn_skipn.
Qed.

(** ** Whitelist updates *)

Lemma check_asset_ok a b : check_asset a = Ok b -> a = b /\ match b with Native _ => True | Cw20 c | Cw1155 c _ => c <> 0 end.
Proof.
  destruct a; cbn [check_asset]; intros H; [inversion H; auto|binv H..]; clean; auto.
Qed.

Lemma map_res_check l l' : map_res check_asset l = Ok l' -> l' = l.
Proof.
  revert l'. induction l as [|a t IH]; intros l' H; cbn [map_res] in H; [clean; reflexivity|].
  binv H. clean. apply check_asset_ok in Hb. destruct Hb as [-> _]. f_equal. apply IH. assumption.
Qed.

Lemma oget_unit (m : omap unit) k : (exists v, oget m k = Some v) <-> oget m k = Some tt.
Proof. split; [intros ([] & H); exact H|eauto]. Qed.

Lemma oset_tt (m : omap unit) k x : oget (oset m k tt) x = Some tt <-> oget m x = Some tt \/ x = k.
Proof.
  rewrite oget_oset. destruct (k =? x) eqn:E.
  - apply N.eqb_eq in E. subst. split; auto.
  - apply N.eqb_neq in E. split; [auto|]. intros [H|H]; [exact H|congruence].
Qed.
Lemma odel_tt (m : omap unit) k x : oget (odel m k) x = Some tt <-> oget m x = Some tt /\ x <> k.
Proof.
  rewrite oget_odel. destruct (k =? x) eqn:E.
  - apply N.eqb_eq in E. subst. split; [discriminate|]. intros [_ H]. congruence.
  - apply N.eqb_neq in E. split; [|tauto]. intros H. split; congruence.
Qed.

Definition same_but_lists (t t' : treasury) : Prop := tr_admin t' = tr_admin t /\ tr_old t' = tr_old t.

Lemma add_asset_ok t a t' : add_asset t a = Ok t' ->
  (forall b, listed t' b <-> listed t b \/ b = a) /\ same_but_lists t t' /\ tr_nfts t' = tr_nfts t /\ tr_cw1155s t' = tr_cw1155s t.
Proof.
  destruct a as [d|c|c i]; cbn [add_asset]; intros H; [| |discriminate]; clean.
  - split; [|repeat split]. intros [d'|c'|c' i']; cbn [listed tr_set_natives tr_natives tr_cw20s tr_cw1155s].
    + rewrite oset_tt. intuition congruence.
    + intuition congruence.
    + intuition congruence.
  - split; [|repeat split]. intros [d'|c'|c' i']; cbn [listed tr_set_cw20s tr_natives tr_cw20s tr_cw1155s].
    + intuition congruence.
    + rewrite oset_tt. intuition congruence.
    + intuition congruence.
Qed.

Lemma remove_asset_ok t a t' : remove_asset t a = Ok t' ->
  (forall b, listed t' b <-> listed t b /\ b <> a) /\ same_but_lists t t' /\ tr_nfts t' = tr_nfts t.
Proof.
  destruct a as [d|c|c i]; cbn [remove_asset]; intros H; [clean|binv H; clean..].
  - split; [|repeat split]. intros [d'|c'|c' i']; cbn [listed tr_set_natives tr_natives tr_cw20s tr_cw1155s].
    + rewrite odel_tt. intuition congruence.
    + intuition congruence.
    + intuition congruence.
  - split; [|repeat split]. intros [d'|c'|c' i']; cbn [listed tr_set_cw20s tr_natives tr_cw20s tr_cw1155s].
    + intuition congruence.
    + rewrite odel_tt. intuition congruence.
    + intuition congruence.
  - destruct (oget (tr_cw1155s t) c) as [m|] eqn:Em.
    + split; [|repeat split]. intros [d'|c'|c' i']; cbn [listed tr_set_cw1155s tr_natives tr_cw20s tr_cw1155s].
      * intuition congruence.
      * intuition congruence.
      * rewrite oget_oset. destruct (c =? c') eqn:E.
        -- apply N.eqb_eq in E. subst. split.
           ++ intros (m' & H1 & H2). inversion H1; subst. apply odel_tt in H2. destruct H2 as [H2 H3]. split; [eauto|congruence].
           ++ intros ((m' & H1 & H2) & H3). exists (odel m i). split; [reflexivity|]. apply odel_tt.
              rewrite Em in H1. inversion H1; subst. split; [exact H2|congruence].
        -- apply N.eqb_neq in E. split; [|tauto]. intros H1. split; [exact H1|congruence].
    + split; [|repeat split]. intros b. split; [|tauto]. intros H1. split; [exact H1|]. intros ->.
      cbn [listed] in H1. destruct H1 as (m & H1 & _). congruence.
Qed.

Lemma add_assets_ok t l t' : add_assets t l = Ok t' ->
  (forall b, listed t' b <-> listed t b \/ In b l) /\ same_but_lists t t' /\ tr_nfts t' = tr_nfts t /\ tr_cw1155s t' = tr_cw1155s t.
Proof.
  unfold add_assets. intros H. binv H. apply map_res_check in Hb. subst.
  revert t H. induction l as [|a r IH]; intros t H; cbn [fold_res] in H.
  - clean. split; [|repeat split]. intros b. cbn. tauto.
  - binv H. apply add_asset_ok in Hb. destruct Hb as (H1 & (Ha & Ho) & Hn & Hc). apply IH in H.
    destruct H as (H2 & (Ha2 & Ho2) & Hn2 & Hc2).
    split; [|repeat split; congruence]. intros b. rewrite H2, H1. cbn. intuition congruence.
Qed.

Lemma remove_assets_ok t l t' : remove_assets t l = Ok t' ->
  (forall b, listed t' b <-> listed t b /\ ~ In b l) /\ same_but_lists t t' /\ tr_nfts t' = tr_nfts t.
Proof.
  unfold remove_assets. revert t. induction l as [|a r IH]; intros t H; cbn [fold_res] in H.
  - clean. split; [|repeat split]. intros b. cbn. tauto.
  - binv H. apply remove_asset_ok in Hb. destruct Hb as (H1 & (Ha & Ho) & Hn). apply IH in H.
    destruct H as (H2 & (Ha2 & Ho2) & Hn2).
    split; [|repeat split; congruence]. intros b. rewrite H2, H1. cbn. intuition congruence.
Qed.

Lemma add_nfts_ok t l t' : fold_res add_nft t l = Ok t' ->
  (forall b, nft_listed t' b <-> nft_listed t b \/ In b l) /\ same_but_lists t t' /\
  tr_natives t' = tr_natives t /\ tr_cw20s t' = tr_cw20s t /\ tr_cw1155s t' = tr_cw1155s t.
Proof.
  revert t. induction l as [|a r IH]; intros t H; cbn [fold_res] in H.
  - clean. split; [|repeat split]. intros b. cbn. tauto.
  - binv H. unfold add_nft in Hb. binv Hb. clean. apply IH in H.
    destruct H as (H2 & (Ha2 & Ho2) & H3 & H4 & H5). cbn in Ha2, Ho2, H3, H4, H5.
    split; [|repeat split; assumption]. intros b. rewrite H2. unfold nft_listed. cbn [tr_set_nfts tr_nfts]. rewrite oset_tt.
    cbn. intuition congruence.
Qed.

Lemma remove_nfts_ok t l t' : fold_res remove_nft t l = Ok t' ->
  (forall b, nft_listed t' b <-> nft_listed t b /\ ~ In b l) /\ same_but_lists t t' /\
  tr_natives t' = tr_natives t /\ tr_cw20s t' = tr_cw20s t /\ tr_cw1155s t' = tr_cw1155s t.
Proof.
  revert t. induction l as [|a r IH]; intros t H; cbn [fold_res] in H.
  - clean. split; [|repeat split]. intros b. cbn. tauto.
  - binv H. unfold remove_nft in Hb. binv Hb. clean. apply IH in H.
    destruct H as (H2 & (Ha2 & Ho2) & H3 & H4 & H5). cbn in Ha2, Ho2, H3, H4, H5.
    split; [|repeat split; assumption]. intros b. rewrite H2. unfold nft_listed. cbn [tr_set_nfts tr_nfts]. rewrite odel_tt.
    cbn. intuition congruence.
Qed.

(** *** The lists hold no malformed address *)

Lemma add_asset_lists t a t' : match a with Native _ => True | Cw20 c | Cw1155 c _ => c <> 0 end ->
  lists_ok t -> add_asset t a = Ok t' -> lists_ok t'.
Proof.
  intros Ha (H1 & H2 & H3) H. destruct a; cbn [add_asset] in H; [| |discriminate]; clean; repeat split; try assumption.
  cbn [tr_set_cw20s tr_cw20s]. rewrite oget_oset. destruct (a =? 0) eqn:E; [apply N.eqb_eq in E; contradiction|assumption].
Qed.

Lemma add_assets_lists t l t' : lists_ok t -> add_assets t l = Ok t' -> lists_ok t'.
Proof.
  unfold add_assets. intros Hok H. binv H. revert t x Hb Hok H.
  induction l as [|a r IH]; intros t x Hb Hok H; cbn [map_res] in Hb; [clean; cbn in H; clean; assumption|].
  binv Hb. clean. cbn [fold_res] in H. binv H. apply check_asset_ok in Hb0. destruct Hb0 as [-> Hc].
  eapply IH; [exact Hb1| |exact H]. eapply add_asset_lists; eassumption.
Qed.

Lemma odel_none {V} (m : omap V) k x : oget m x = None -> oget (odel m k) x = None.
Proof. intros H. rewrite oget_odel. destruct (k =? x); auto. Qed.

Lemma remove_assets_lists t l t' : lists_ok t -> remove_assets t l = Ok t' -> lists_ok t'.
Proof.
  unfold remove_assets. apply fold_res_inv. intros s a s' _ (H1 & H2 & H3) H.
  destruct a; cbn [remove_asset] in H; [clean|binv H; clean..].
  - repeat split; assumption.
  - repeat split; try assumption. apply odel_none. assumption.
  - destruct (oget (tr_cw1155s s) a) eqn:E; [|repeat split; assumption].
    repeat split; try assumption. cbn [tr_set_cw1155s tr_cw1155s]. rewrite oget_oset.
    destruct (a =? 0) eqn:E0; [|assumption]. apply N.eqb_eq in E0. subst. congruence.
Qed.

Lemma add_nfts_lists t l t' : lists_ok t -> fold_res add_nft t l = Ok t' -> lists_ok t'.
Proof.
  apply fold_res_inv. intros s a s' _ (H1 & H2 & H3) H. unfold add_nft in H. binv H. clean. repeat split; try assumption.
  cbn [tr_set_nfts tr_nfts]. rewrite oget_oset. destruct (a =? 0) eqn:E; [|assumption]. apply N.eqb_eq in E. contradiction.
Qed.
Lemma remove_nfts_lists t l t' : lists_ok t -> fold_res remove_nft t l = Ok t' -> lists_ok t'.
Proof.
  apply fold_res_inv. intros s a s' _ (H1 & H2 & H3) H. unfold remove_nft in H. binv H. clean. repeat split; try assumption.
  apply odel_none. assumption.
Qed.
