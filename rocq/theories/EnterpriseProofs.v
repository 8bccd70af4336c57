(** Proofs about the enterprise contract, the version registry and the attestation contract. *)
From Coq Require Import Sorting.Sorted.
From Verif Require Import Base OMap OMapLemmas Assets FundsModel MemberModel Msgs ControllerModel EnterpriseModel EnterpriseSpec.

(** ** Version numbers *)
Lemma version_lt a b : u64_triple a -> u64_triple b -> (code_of a < code_of b <-> triple_lt a b).
Proof.
  destruct a as [[a1 a2] a3], b as [[b1 b2] b3]. cbn [u64_triple code_of triple_lt]. unfold version.
  intros (_ & A2 & A3) (_ & B2 & B3).
  pose proof M64_pos.
  split.
  - intros H1. destruct (N.lt_trichotomy a1 b1) as [L|[->|L]]; [left; exact L| |exfalso; nia].
    right. split; [reflexivity|]. destruct (N.lt_trichotomy a2 b2) as [L|[->|L]]; [left; exact L| |exfalso; nia].
    right. split; [reflexivity|]. nia.
  - intros [L|[-> [L|[-> L]]]]; nia.
Qed.

Lemma version_inj a b : u64_triple a -> u64_triple b -> code_of a = code_of b -> a = b.
Proof.
  intros Ha Hb E.
  assert (N1 : ~ triple_lt a b) by (intros L; apply (version_lt a b Ha Hb) in L; lia).
  assert (N2 : ~ triple_lt b a) by (intros L; apply (version_lt b a Hb Ha) in L; lia).
  destruct a as [[a1 a2] a3], b as [[b1 b2] b3]. cbn in N1, N2.
  assert (a1 = b1) by lia. subst. assert (a2 = b2) by lia. subst. assert (a3 = b3) by lia. subst. reflexivity.
Qed.

(** ** Registry *)
Lemma registry_admin_only r s m : s <> rg_admin r -> registry_execute r s m = Err EUnauthorized.
Proof.
  intros H. apply N.eqb_neq in H. destruct m; cbn [registry_execute]; unfold addr in *;
    [rewrite H|rewrite N.eqb_sym, H|rewrite N.eqb_sym, H]; reflexivity.
Qed.

Lemma registry_update_admin_iff r s a r' :
  registry_execute r s (RgUpdateAdmin a) = Ok r' <->
  s = rg_admin r /\ a <> 0 /\ r' = mk_registry a (rg_versions r).
Proof.
  cbn [registry_execute]. unfold addr_validate, guard. unfold addr in *.
  destruct (N.eqb_spec s (rg_admin r)); destruct (N.eqb_spec a 0); cbn [bind]; split; intros H;
    try discriminate; try (destruct H as (? & ? & ?); congruence); clean; auto.
Qed.

Lemma registry_add_iff r s v r' :
  registry_execute r s (RgAddVersion v) = Ok r' <->
  s = rg_admin r /\ oget (rg_versions r) (vi_version v) = None /\
  r' = mk_registry (rg_admin r) (oset (rg_versions r) (vi_version v) v).
Proof.
  cbn [registry_execute]. unfold guard, ohas. unfold addr in *.
  destruct (N.eqb_spec (rg_admin r) s); destruct (oget (rg_versions r) (vi_version v)); cbn [is_some negb bind];
    split; intros H; try discriminate; try (destruct H as (? & ? & ?); congruence); clean; auto.
Qed.

Lemma registry_edit_iff r s e r' :
  registry_execute r s (RgEditVersion e) = Ok r' <->
  s = rg_admin r /\ exists v, oget (rg_versions r) (ve_version e) = Some v /\
  r' = mk_registry (rg_admin r) (oset (rg_versions r) (ve_version e) (apply_edit v e)).
Proof.
  cbn [registry_execute]. unfold guard, ok_or. unfold addr in *.
  destruct (N.eqb_spec (rg_admin r) s); destruct (oget (rg_versions r) (ve_version e)) as [v|] eqn:E; cbn [bind];
    split; intros H; try discriminate; try (destruct H as (? & ? & ? & ?); congruence).
  - clean. split; [reflexivity|]. exists v. auto.
Qed.

Lemma registry_ok_execute r s m r' : registry_ok r -> registry_execute r s m = Ok r' -> registry_ok r'.
Proof.
  intros Hr H. destruct m as [a|v|e].
  - apply registry_update_admin_iff in H. destruct H as (_ & _ & ->). exact Hr.
  - apply registry_add_iff in H. destruct H as (_ & Hn & ->). intros k w. cbn [rg_versions]. rewrite oget_oset.
    destruct (N.eqb_spec (vi_version v) k); [intros Hw; inversion Hw; subst; reflexivity|apply Hr].
  - apply registry_edit_iff in H. destruct H as (_ & v & Hv & ->). intros k w. cbn [rg_versions]. rewrite oget_oset.
    destruct (N.eqb_spec (ve_version e) k) as [<-|]; [|apply Hr]. intros Hw. inversion Hw; subst. cbn [vi_version apply_edit].
    apply Hr. exact Hv.
Qed.

Lemma registry_ok_run r l : registry_ok r -> registry_ok (registry_run r l).
Proof.
  revert r. induction l as [|[s m] t IH]; intros r Hr; [exact Hr|]. cbn [registry_run fold_left].
  apply IH. unfold registry_step. cbn [fst snd]. destruct (registry_execute r s m) eqn:E; [eapply registry_ok_execute; eassumption|exact Hr].
Qed.

Lemma registry_ok_new a r : registry_instantiate a = Ok r -> registry_ok r /\ rg_admin r = a /\ forall k, oget (rg_versions r) k = None.
Proof.
  unfold registry_instantiate. intros H. binv H. clean. split; [intros k v; cbn [rg_versions]; rewrite oget_empty; discriminate|].
  split; [reflexivity|]. intros k. apply oget_empty.
Qed.

(** ** Paging through the registry *)
Definition svers (l : list (N * version_info)) : list version_info := map snd l.

Lemma keyed_filter r (f : N * version_info -> bool) : registry_ok r ->
  forall x, In x (filter f (elems (rg_versions r))) -> vi_version (snd x) = fst x.
Proof. intros Hr [k v] Hin. apply filter_In in Hin. destruct Hin as [Hin _]. apply Hr. apply oget_In. exact Hin. Qed.

Lemma sorted_ascending (l : list (N * version_info)) :
  sortedb l = true -> (forall x, In x l -> vi_version (snd x) = fst x) -> ascending (map snd l).
Proof.
  induction l as [|[k v] t IH]; intros Hs Hk; [constructor|]. cbn [map]. constructor.
  - apply IH; [eapply sortedb_tail; exact Hs|]. intros x Hx. apply Hk. right. exact Hx.
  - apply Forall_forall. intros w Hw. apply in_map_iff in Hw. destruct Hw as ([k' w'] & E & Hin). cbn in E. subst w'.
    pose proof (Hk (k, v) (or_introl eq_refl)) as E1. pose proof (Hk (k', w) (or_intror Hin)) as E2. cbn [fst snd] in E1, E2.
    pose proof (sortedb_gt _ _ _ _ _ Hs Hin). cbn [snd]. lia.
Qed.

(** The specified list of an upgrade, computed. *)
Definition between (r : registry) (lo hi : N) : list version_info :=
  map snd (filter (fun x => (lo <? fst x) && (fst x <=? hi)) (elems (rg_versions r))).

Lemma between_spec r lo hi : registry_ok r -> released_between r lo hi (between r lo hi).
Proof.
  intros Hr. split.
  - apply sorted_ascending; [apply filter_ok, elems_ok|apply keyed_filter; exact Hr].
  - intros v. unfold between. rewrite in_map_iff. split.
    + intros ([k w] & E & Hin). cbn in E. subst w. apply filter_In in Hin. destruct Hin as [Hin Hb]. cbn [fst] in Hb.
      apply andb_prop in Hb. destruct Hb as [B1 B2]. apply N.ltb_lt in B1. apply N.leb_le in B2.
      apply oget_In in Hin. unfold released. pose proof (Hr _ _ Hin) as E. rewrite E. auto.
    + intros (Hv & L1 & L2). exists (vi_version v, v). split; [reflexivity|]. apply filter_In. split; [apply oget_In; exact Hv|].
      cbn [fst]. apply andb_true_intro. split; [apply N.ltb_lt|apply N.leb_le]; assumption.
Qed.

Lemma ascending_unique l1 l2 : ascending l1 -> ascending l2 -> (forall v, In v l1 <-> In v l2) -> l1 = l2.
Proof.
  revert l2. induction l1 as [|a t IH]; intros l2 H1 H2 Hin.
  - destruct l2 as [|b t2]; [reflexivity|]. exfalso. apply (Hin b). left; reflexivity.
  - destruct l2 as [|b t2]; [exfalso; apply (Hin a); left; reflexivity|].
    inversion H1 as [|? ? S1 F1]; subst. inversion H2 as [|? ? S2 F2]; subst.
    rewrite Forall_forall in F1, F2.
    assert (a = b).
    { destruct (proj1 (Hin a) (or_introl eq_refl)) as [E|Ia]; [congruence|].
      destruct (proj2 (Hin b) (or_introl eq_refl)) as [E|Ib]; [congruence|].
      pose proof (F2 a Ia). pose proof (F1 b Ib). lia. }
    subst b. f_equal. apply IH; try assumption. intros v. split; intros Hv.
    + destruct (proj1 (Hin v) (or_intror Hv)) as [E|Ib]; [|exact Ib]. subst v. pose proof (F1 a Hv). lia.
    + destruct (proj2 (Hin v) (or_intror Hv)) as [E|Ib]; [|exact Ib]. subst v. pose proof (F2 a Hv). lia.
Qed.

Lemma released_between_unique r lo hi l1 l2 :
  released_between r lo hi l1 -> released_between r lo hi l2 -> l1 = l2.
Proof.
  intros [A1 B1] [A2 B2]. apply ascending_unique; [assumption..|]. intros v. rewrite B1, B2. reflexivity.
Qed.

(** *** One page *)
Lemma filter_filter' {A} (f g : A -> bool) l : filter f (filter g l) = filter (fun x => g x && f x) l.
Proof. induction l as [|x t IH]; [reflexivity|]. cbn. destruct (g x) eqn:E; cbn; [destruct (f x); rewrite IH; reflexivity|exact IH]. Qed.

Lemma take_versions_acc target page : forall acc l b,
  take_versions target page acc = (l, b) -> exists l', l = acc ++ l' /\ take_versions target page [] = (l', b).
Proof.
  induction page as [|v t IH]; intros acc l b H; cbn [take_versions] in *.
  - inversion H; subst. exists []. rewrite app_nil_r. auto.
  - destruct (target <? vi_version v); [inversion H; subst; exists []; rewrite app_nil_r; auto|].
    destruct (vi_version v =? target); [inversion H; subst; exists [v]; auto|].
    apply IH in H. destruct H as (l' & -> & H). cbn [app].
    destruct (take_versions target t [v]) as [q b'] eqn:E. pose proof E as E'. apply IH in E'. destruct E' as (l2 & -> & E2).
    rewrite H in E2. inversion E2; subst. exists (v :: l2). rewrite <- app_assoc. auto.
Qed.

(** On ascending versions the inner loop filters and reports whether the target was reached. *)
Lemma take_versions_spec target page : ascending page ->
  take_versions target page [] =
  (filter (fun v => vi_version v <=? target) page, existsb (fun v => target <=? vi_version v) page).
Proof.
  induction page as [|v t IH]; intros Ha; [reflexivity|]. inversion Ha as [|? ? S F]; subst. rewrite Forall_forall in F.
  cbn [take_versions filter existsb].
  destruct (N.ltb_spec target (vi_version v)) as [L|L].
  - assert (vi_version v <=? target = false) as -> by (apply N.leb_gt; exact L).
    assert (target <=? vi_version v = true) as -> by (apply N.leb_le; lia). cbn [orb]. f_equal.
    symmetry. clear IH Ha. revert F. induction t as [|w t' IHt]; intros F; [reflexivity|]. cbn [filter].
    pose proof (F w (or_introl eq_refl)). assert (vi_version w <=? target = false) as -> by (apply N.leb_gt; lia).
    inversion S; subst. apply IHt; [assumption|]. intros x Hx. apply F. right. exact Hx.
  - assert (vi_version v <=? target = true) as -> by (apply N.leb_le; exact L).
    destruct (N.eqb_spec (vi_version v) target) as [E|E].
    + assert (target <=? vi_version v = true) as -> by (apply N.leb_le; lia). cbn [orb app]. f_equal. f_equal.
      symmetry. clear IH Ha. revert F. induction t as [|w t' IHt]; intros F; [reflexivity|]. cbn [filter].
      pose proof (F w (or_introl eq_refl)). assert (vi_version w <=? target = false) as -> by (apply N.leb_gt; lia).
      inversion S; subst. apply IHt; [assumption|]. intros x Hx. apply F. right. exact Hx.
    + assert (target <=? vi_version v = false) as -> by (apply N.leb_gt; lia). cbn [orb app].
      specialize (IH S). destruct (take_versions target t [v]) as [q b] eqn:E2.
      apply take_versions_acc in E2. destruct E2 as (l' & -> & E2). rewrite IH in E2. inversion E2; subst. reflexivity.
Qed.

Lemma orange_above r last : orange (rg_versions r) (Some last) = filter (fun x => last <? fst x) (elems (rg_versions r)).
Proof. reflexivity. Qed.

(** Splitting the versions above [last] at the end of a page. *)
Lemma sorted_split_last {V} (l : list (N * V)) n (k : N) (v : V) rest :
  sortedb l = true -> rev (firstn n l) = (k, v) :: rest -> filter (fun x => k <? fst x) l = skipn n l.
Proof.
  intros Hs Hrev.
  assert (Hf : firstn n l = rev rest ++ [(k, v)]) by (rewrite <- (rev_involutive (firstn n l)), Hrev; reflexivity).
  rewrite <- (firstn_skipn n l) at 1. rewrite Hf, filter_app, filter_app. cbn [filter fst]. rewrite N.ltb_irrefl, app_nil_r.
  assert (Hs2 : sortedb (rev rest ++ (k, v) :: skipn n l) = true).
  { replace (rev rest ++ (k, v) :: skipn n l) with l; [exact Hs|]. rewrite <- (firstn_skipn n l) at 1. rewrite Hf, <- app_assoc. reflexivity. }
  clear Hs Hrev Hf. revert Hs2. generalize (rev rest) as p, (skipn n l) as q. clear.
  intros p q Hs. 
  assert (Hp : filter (fun x : N * V => k <? fst x) p = []).
  { induction p as [|[a b] t IH]; [reflexivity|]. cbn [app] in Hs. cbn [filter fst].
    pose proof (sortedb_gt _ _ _ k v Hs ltac:(apply in_or_app; right; left; reflexivity)).
    destruct (N.ltb_spec k a); [lia|]. apply IH. eapply sortedb_tail. exact Hs. }
  rewrite Hp. cbn [app].
  assert (Hq : sortedb ((k, v) :: q) = true).
  { clear Hp. induction p as [|x t IH]; [exact Hs|]. apply IH. cbn [app] in Hs. eapply sortedb_tail. exact Hs. }
  clear Hs Hp. assert (Hall : forall x, In x q -> k < fst x) by (intros [a b] Hx; eapply sortedb_gt; [exact Hq|exact Hx]).
  clear Hq p. induction q as [|x t IH]; [reflexivity|]. cbn [filter]. rewrite (proj2 (N.ltb_lt _ _) (Hall x (or_introl eq_refl))).
  f_equal. apply IH. intros y Hy. apply Hall. right. exact Hy.
Qed.

Lemma skipn_length_le {A} n (l : list A) : (length (skipn n l) <= length l)%nat.
Proof. rewrite skipn_length. lia. Qed.

Lemma page_nonempty_progress {A} n (l : list A) x t : rev (firstn n l) = x :: t -> (length (skipn n l) < length l)%nat.
Proof.
  intros H. rewrite skipn_length. destruct n; [cbn in H; discriminate|]. destruct l as [|a q]; [cbn in H; discriminate|]. cbn [length]. lia.
Qed.

Lemma firstn_filter_in {A} n (l : list A) x : In x (firstn n l) -> In x l.
Proof. intros H. rewrite <- (firstn_skipn n l). apply in_or_app. left. exact H. Qed.

Lemma map_snd_filter (l : list (N * version_info)) t : (forall x, In x l -> vi_version (snd x) = fst x) ->
  filter (fun v => vi_version v <=? t) (map snd l) = map snd (filter (fun x => fst x <=? t) l).
Proof.
  induction l as [|x q IH]; intros H; [reflexivity|]. cbn [map filter]. rewrite (H x (or_introl eq_refl)).
  rewrite IH by (intros y Hy; apply H; right; exact Hy). destruct (fst x <=? t); reflexivity.
Qed.

Lemma above_none t (l : list (N * version_info)) : (forall x, In x l -> t < fst x) -> filter (fun x => fst x <=? t) l = [].
Proof.
  induction l as [|x q IH]; intros H; [reflexivity|]. cbn [filter].
  assert (fst x <=? t = false) as -> by (apply N.leb_gt; apply H; left; reflexivity). apply IH. intros y Hy. apply H. right. exact Hy.
Qed.

(** The whole loop against the registry: everything above [last] up to the target. *)
Lemma versions_loop_spec r target : registry_ok r -> forall fuel last acc,
  (length (orange (rg_versions r) (Some last)) < fuel)%nat ->
  versions_loop fuel (fun s => Ok (query_versions r s (Some 100))) target (Some last) acc =
  Ok (acc ++ map snd (filter (fun x => fst x <=? target) (orange (rg_versions r) (Some last)))).
Proof.
  intros Hr. induction fuel as [|n IH]; intros lastv acc Hlen; [lia|].
  cbn [versions_loop bind].
  set (L := orange (rg_versions r) (Some lastv)) in *.
  assert (HsL : sortedb L = true) by apply orange_sorted.
  assert (HkL : forall x, In x L -> vi_version (snd x) = fst x).
  { intros [k v] Hin. apply Hr. apply orange_In in Hin. apply Hin. }
  assert (Hpage : exists np, (0 < np)%nat /\ query_versions r (Some lastv) (Some 100) = map snd (firstn np L)).
  { exists (N.to_nat (N.min (dflt 10 (Some 100)) 50)). split; [vm_compute; lia|reflexivity]. }
  destruct Hpage as (np & Hnp & Hpage).
  rewrite Hpage. rewrite <- map_rev. destruct (rev (firstn np L)) as [|[k v] rest] eqn:Erev.
  - cbn [map]. assert (HL : L = []).
    { assert (HF : firstn np L = []) by (rewrite <- (rev_involutive (firstn np L)), Erev; reflexivity).
      destruct L as [|x q]; [reflexivity|]. destruct np; [lia|]. discriminate HF. }
    rewrite HL. cbn. rewrite app_nil_r. reflexivity.
  - cbn [map snd].
    assert (Hasc : ascending (map snd (firstn np L))).
    { apply sorted_ascending.
      - rewrite <- (firstn_skipn np L) in HsL. clear - HsL. revert HsL. generalize (firstn np L), (skipn np L).
        intros l1 l2. induction l1 as [|[a b] t IHl]; intros H; [reflexivity|]. cbn [app] in H. apply sortedb_cons.
        + apply IHl. eapply sortedb_tail; exact H.
        + intros k' v' Hin. eapply sortedb_gt; [exact H|]. apply in_or_app. left. exact Hin.
      - intros x Hx. apply HkL. eapply firstn_filter_in; exact Hx. }
    destruct (take_versions target (map snd (firstn np L)) acc) as [acc' stop] eqn:Et.
    apply take_versions_acc in Et. destruct Et as (l' & -> & Et). rewrite take_versions_spec in Et by exact Hasc.
    injection Et as E1 E2. subst l'.
    rewrite (map_snd_filter (firstn np L) target) by (intros x Hx; apply HkL; eapply firstn_filter_in; exact Hx).
    assert (Hsplit : map snd (filter (fun x => fst x <=? target) L) =
      map snd (filter (fun x => fst x <=? target) (firstn np L)) ++ map snd (filter (fun x => fst x <=? target) (skipn np L))).
    { rewrite <- map_app, <- filter_app, firstn_skipn. reflexivity. }
    destruct stop.
    + rewrite Hsplit. rewrite (above_none target (skipn np L)); [cbn [map]; rewrite app_nil_r; reflexivity|].
      intros x Hx. apply existsb_exists in E2. destruct E2 as (w & Hw & Hge). apply in_map_iff in Hw. destruct Hw as (y & <- & Hy).
      apply N.leb_le in Hge. rewrite (HkL y (firstn_filter_in _ _ _ Hy)) in Hge.
      assert (fst y < fst x); [|lia].
      rewrite <- (firstn_skipn np L) in HsL. clear - HsL Hy Hx. revert HsL Hy Hx. generalize (firstn np L), (skipn np L). intros l1 l2.
      induction l1 as [|[a b] t IHl]; intros Hs H1 H2; [destruct H1|]. destruct H1 as [<-|H1].
      * destruct x as [xk xv]. cbn [fst]. eapply sortedb_gt; [exact Hs|]. apply in_or_app. right. exact H2.
      * apply IHl; [eapply sortedb_tail; exact Hs|exact H1|exact H2].
    + assert (Hnext : orange (rg_versions r) (Some (vi_version v)) = skipn np L).
      { assert (Hv : vi_version v = k).
        { apply (HkL (k, v)). eapply firstn_filter_in. apply in_rev. rewrite Erev. left. reflexivity. }
        rewrite Hv. rewrite <- (sorted_split_last L np k v rest HsL Erev). unfold L. rewrite !orange_above. rewrite filter_filter'.
        apply filter_ext. intros [a b]. cbn [fst].
        assert (Hlk : lastv < k).
        { assert (Hin : In (k, v) L) by (eapply firstn_filter_in; apply in_rev; rewrite Erev; left; reflexivity).
          apply orange_In in Hin. apply Hin. }
        destruct (N.ltb_spec k a); destruct (N.ltb_spec lastv a); cbn; try reflexivity; lia. }
      rewrite IH.
      * rewrite Hnext, Hsplit, <- app_assoc. reflexivity.
      * rewrite Hnext. pose proof (page_nonempty_progress _ _ _ _ Erev). lia.
Qed.

Lemma orange_length {V} (m : omap V) s : (length (orange m s) <= length (elems m))%nat.
Proof.
  unfold orange. destruct s; [|lia]. induction (elems m) as [|x t IH]; [cbn; lia|]. cbn [filter]. destruct (n <? fst x); cbn [length]; lia.
Qed.

Lemma versions_between_spec self creator fuel r e target : registry_ok r ->
  (length (elems (rg_versions r)) < fuel)%nat ->
  versions_between (registry_oracle self creator fuel r) e target = Ok (between r (en_version e) target).
Proof.
  intros Hr Hf. unfold versions_between, registry_oracle. cbn [eo_fuel eo_versions].
  rewrite versions_loop_spec; [|exact Hr|pose proof (orange_length (rg_versions r) (Some (en_version e))); lia].
  cbn [app]. f_equal. unfold between. rewrite orange_above, filter_filter'. reflexivity.
Qed.

(** ** Migration messages *)
Lemma migrate_map_spec msgs :
  match migrate_map msgs with
  | Ok m => NoDup (map fst msgs) /\ forall k, oget m k = lget msgs k
  | Err e => e = EDuplicateMigrateMsg /\ ~ NoDup (map fst msgs)
  end.
Proof.
  unfold migrate_map.
  assert (G : forall msgs m0 seen, (forall k, oget m0 k = lget seen k) -> NoDup (map fst seen) ->
    match fold_res (fun (m : omap N) (x : N * N) => if ohas m (fst x) then Err EDuplicateMigrateMsg else Ok (oset m (fst x) (snd x))) m0 msgs with
    | Ok m => NoDup (map fst (seen ++ msgs)) /\ forall k, oget m k = lget (seen ++ msgs) k
    | Err e => e = EDuplicateMigrateMsg /\ ~ NoDup (map fst (seen ++ msgs))
    end).
  { clear. induction msgs as [|[k v] t IH]; intros m0 seen Hg Hn.
    - cbn [fold_res]. rewrite app_nil_r. auto.
    - cbn [fold_res fst snd]. unfold ohas. rewrite Hg. destruct (lget seen k) as [v'|] eqn:E; cbn [is_some bind].
      + split; [reflexivity|]. apply lget_In in E. rewrite map_app. cbn [map fst]. intros Hd. apply NoDup_remove_2 in Hd.
        apply Hd. apply in_or_app. left. apply in_map_iff. exists (k, v'). auto.
      + assert (Hni : forall w, ~ In (k, w) seen).
        { intros w Hin. clear - E Hin. induction seen as [|[a b] q IHq]; [destruct Hin|]. cbn [lget] in E.
          destruct (N.eqb_spec k a); [discriminate|]. destruct Hin as [Hin|Hin]; [congruence|auto]. }
        specialize (IH (oset m0 k v) (seen ++ [(k, v)])). rewrite <- app_assoc in IH. cbn [app] in IH. apply IH.
        * intros k'. rewrite oget_oset, Hg. clear - E Hni. induction seen as [|[a b] q IHq]; cbn [app lget].
          -- rewrite (N.eqb_sym k' k). destruct (k =? k'); reflexivity.
          -- cbn [lget] in E. destruct (N.eqb_spec k a); [discriminate|].
             destruct (N.eqb_spec k' a).
             ++ subst. destruct (N.eqb_spec k a); [congruence|reflexivity].
             ++ apply IHq; [exact E|]. intros w Hw. apply (Hni w). right. exact Hw.
        * rewrite map_app. cbn [map fst]. apply NoDup_rev in Hn. apply NoDup_rev in Hn. rewrite rev_involutive in Hn.
          apply (NoDup_Add (a := k) (l := map fst seen)); [|split; [exact Hn|]].
          -- clear. induction (map fst seen); cbn; constructor. assumption.
          -- intros Hin. apply in_map_iff in Hin. destruct Hin as ([a b] & <- & Hin). apply (Hni b). exact Hin. }
  specialize (G msgs oempty []). cbn [app] in G. apply G; [intros k; apply oget_empty|constructor].
Qed.

Lemma en_controller_only_iff e s c :
  en_controller_only e s = Ok c <-> en_components e = Some c /\ s = c_controller c.
Proof.
  unfold en_controller_only, ok_or, guard. destruct (en_components e) as [c'|]; cbn [bind].
  - unfold addr. destruct (N.eqb_spec s (c_controller c')); cbn [bind]; split; intros H; try discriminate.
    + clean. auto.
    + destruct H as [H _]. inversion H; subst. reflexivity.
    + destruct H as [H H2]. inversion H; subst. congruence.
  - split; [discriminate|intros [H _]; discriminate].
Qed.

Lemma en_controller_only_no e s : controller_of e <> Some s -> exists er, en_controller_only e s = Err er.
Proof.
  intros H. destruct (en_controller_only e s) as [c|er] eqn:E; [|eauto]. apply en_controller_only_iff in E. destruct E as [E ->].
  exfalso. apply H. unfold controller_of. rewrite E. reflexivity.
Qed.
