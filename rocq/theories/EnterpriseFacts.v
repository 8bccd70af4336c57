(** The facts about the enterprise contract, the registry and the attestation, in the form of the properties. *)
From Coq Require Import Sorting.Sorted.
From Verif Require Import Base OMap OMapLemmas Assets FundsModel MemberModel Msgs ControllerModel
  EnterpriseModel EnterpriseSpec EnterpriseProofs TreasurySpec TreasuryProofs.

(** ** C46: the registry *)
Lemma registry_strangers r l : Forall (fun c => fst c <> rg_admin r) l -> registry_run r l = r.
Proof.
  induction l as [|[s m] t IH]; intros H; [reflexivity|]. inversion H; subst. cbn [registry_run fold_left].
  assert (E : registry_step r (s, m) = r) by (unfold registry_step; cbn [fst snd] in *; rewrite registry_admin_only by assumption; reflexivity).
  rewrite E. apply IH. assumption.
Qed.

Lemma registry_add_effect r s v r' :
  registry_execute r s (RgAddVersion v) = Ok r' <->
  s = rg_admin r /\ oget (rg_versions r) (vi_version v) = None /\
  rg_admin r' = rg_admin r /\ oget (rg_versions r') (vi_version v) = Some v /\
  forall k, k <> vi_version v -> oget (rg_versions r') k = oget (rg_versions r) k.
Proof.
  rewrite registry_add_iff. split.
  - intros (-> & Hn & ->). cbn [rg_admin rg_versions]. rewrite oget_oset_eq. repeat split; auto.
    intros k Hk. apply oget_oset_ne. congruence.
  - intros (-> & Hn & Ha & Hv & Hk). repeat split; auto. destruct r' as [a' m']. cbn [rg_admin rg_versions] in *. subst a'. f_equal.
    apply omap_ext. intros k. rewrite oget_oset. destruct (N.eqb_spec (vi_version v) k) as [<-|Hne]; [exact Hv|apply Hk; congruence].
Qed.

Lemma registry_edit_effect r s e r' :
  registry_execute r s (RgEditVersion e) = Ok r' <->
  s = rg_admin r /\ rg_admin r' = rg_admin r /\
  (forall k, k <> ve_version e -> oget (rg_versions r') k = oget (rg_versions r) k) /\
  exists v w, oget (rg_versions r) (ve_version e) = Some v /\ oget (rg_versions r') (ve_version e) = Some w /\
    vi_version w = vi_version v /\
    edited (vi_changelog v) (ve_changelog e) (vi_changelog w) /\
    edited (vi_attestation v) (ve_attestation e) (vi_attestation w) /\
    edited (vi_enterprise v) (ve_enterprise e) (vi_enterprise w) /\
    edited (vi_governance v) (ve_governance e) (vi_governance w) /\
    edited (vi_controller v) (ve_controller e) (vi_controller w) /\
    edited (vi_outposts v) (ve_outposts e) (vi_outposts w) /\
    edited (vi_treasury v) (ve_treasury e) (vi_treasury w) /\
    edited (vi_funds v) (ve_funds e) (vi_funds w) /\
    edited (vi_token v) (ve_token e) (vi_token w) /\
    edited (vi_denom v) (ve_denom e) (vi_denom w) /\
    edited (vi_nft v) (ve_nft e) (vi_nft w) /\
    edited (vi_multisig v) (ve_multisig e) (vi_multisig w).
Proof.
  rewrite registry_edit_iff.
  assert (Hed : forall a o, edited a o (dflt a o)) by (intros a [x|]; reflexivity).
  assert (Hun : forall a o x, edited a o x -> x = dflt a o) by (intros a [y|] x; cbn; auto).
  split.
  - intros (-> & v & Hv & ->). cbn [rg_admin rg_versions]. split; [reflexivity|]. split; [reflexivity|]. split.
    + intros k Hk. apply oget_oset_ne. congruence.
    + exists v, (apply_edit v e). rewrite oget_oset_eq. split; [exact Hv|]. split; [reflexivity|].
      cbn [apply_edit vi_version vi_changelog vi_attestation vi_enterprise vi_governance vi_controller vi_outposts vi_treasury vi_funds vi_token vi_denom vi_nft vi_multisig].
      repeat (split; [auto|]); auto.
  - intros (-> & Ha & Hk & v & w & Hv & Hw & E0 & E1 & E2 & E3 & E4 & E5 & E6 & E7 & E8 & E9 & E10 & E11 & E12).
    split; [reflexivity|]. exists v. split; [exact Hv|]. destruct r' as [a' m']. cbn [rg_admin rg_versions] in *. subst a'. f_equal.
    apply omap_ext. intros k. rewrite oget_oset. destruct (N.eqb_spec (ve_version e) k) as [<-|Hne]; [|apply Hk; congruence].
    rewrite Hw. f_equal. apply Hun in E1, E2, E3, E4, E5, E6, E7, E8, E9, E10, E11, E12. destruct w as [w0 w1 w2 w3 w4 w5 w6 w7 w8 w9 w10 w11 w12].
    cbn [vi_version vi_changelog vi_attestation vi_enterprise vi_governance vi_controller vi_outposts vi_treasury vi_funds vi_token vi_denom vi_nft vi_multisig] in *.
    unfold apply_edit. congruence.
Qed.

Lemma registry_admin_effect r s a r' :
  registry_execute r s (RgUpdateAdmin a) = Ok r' <->
  s = rg_admin r /\ a <> 0 /\ rg_admin r' = a /\ forall k, oget (rg_versions r') k = oget (rg_versions r) k.
Proof.
  rewrite registry_update_admin_iff. split.
  - intros (-> & Ha & ->). auto.
  - intros (-> & Ha & Hb & Hk). repeat split; auto. destruct r' as [a' m']. cbn [rg_admin rg_versions] in *. subst. f_equal.
    apply omap_ext. exact Hk.
Qed.

Lemma registry_grows r l k v : oget (rg_versions r) k = Some v ->
  exists w, oget (rg_versions (registry_run r l)) k = Some w /\ vi_version w = vi_version v.
Proof.
  revert r v. induction l as [|[s m] t IH]; intros r v Hv; [eauto|]. cbn [registry_run fold_left].
  assert (Hs : exists w, oget (rg_versions (registry_step r (s, m))) k = Some w /\ vi_version w = vi_version v).
  { unfold registry_step. cbn [fst snd]. destruct (registry_execute r s m) as [r'|] eqn:E; [|eauto]. destruct m as [a|n|e].
    - apply registry_admin_effect in E. destruct E as (_ & _ & _ & E). rewrite E. eauto.
    - apply registry_add_effect in E. destruct E as (_ & Hn & _ & _ & E). rewrite E; [eauto|]. intros ->. congruence.
    - apply registry_edit_effect in E. destruct E as (_ & _ & E & v0 & w & Hv0 & Hw & Hvv & _).
      destruct (N.eq_dec k (ve_version e)) as [->|Hne]; [|rewrite E by assumption; eauto]. rewrite Hv in Hv0. inversion Hv0; subst. eauto. }
  destruct Hs as (w & Hw & E1). destruct (IH _ _ Hw) as (w' & Hw' & E2). exists w'. split; [exact Hw'|congruence].
Qed.

Lemma registry_from_start a r l : registry_instantiate a = Ok r -> registry_ok (registry_run r l).
Proof. intros H. apply registry_ok_run. apply registry_ok_new in H. apply H. Qed.

(** Where a version comes from. *)
Lemma registry_origin a r l k : registry_instantiate a = Ok r ->
  is_some (oget (rg_versions (registry_run r l)) k) = true ->
  exists l1 v l2, l = l1 ++ (rg_admin (registry_run r l1), RgAddVersion v) :: l2 /\ vi_version v = k.
Proof.
  intros Hi. apply registry_ok_new in Hi. destruct Hi as (_ & _ & Hnone). revert k.
  induction l as [|[s m] l IH] using rev_ind; intros k Hk.
  - cbn in Hk. rewrite Hnone in Hk. discriminate.
  - unfold registry_run in Hk. rewrite fold_left_app in Hk. cbn [fold_left] in Hk.
    fold (registry_run r l) in Hk. unfold registry_step in Hk. cbn [fst snd] in Hk.
    assert (Hold : is_some (oget (rg_versions (registry_run r l)) k) = true ->
      exists l1 v l2, l ++ [(s, m)] = l1 ++ (rg_admin (registry_run r l1), RgAddVersion v) :: l2 /\ vi_version v = k).
    { intros Ho. destruct (IH k Ho) as (l1 & v & l2 & -> & Ev). exists l1, v, (l2 ++ [(s, m)]). rewrite <- app_assoc. auto. }
    destruct (registry_execute (registry_run r l) s m) as [r'|] eqn:E; [|auto]. destruct m as [b|n|e].
    + apply registry_admin_effect in E. destruct E as (_ & _ & _ & E). rewrite E in Hk. auto.
    + apply registry_add_effect in E. destruct E as (Es & Hn & _ & _ & E).
      destruct (N.eq_dec k (vi_version n)) as [->|Hne]; [|rewrite E in Hk by assumption; auto].
      exists l, n, []. rewrite Es. auto.
    + apply registry_edit_effect in E. destruct E as (_ & _ & E & v & w & Hv & Hw & _).
      destruct (N.eq_dec k (ve_version e)) as [->|Hne]; [|rewrite E in Hk by assumption; auto]. apply Hold. rewrite Hv. reflexivity.
Qed.

Lemma registry_latest r v : registry_ok r -> query_latest_version r = Ok v ->
  released r v /\ (forall w, released r w -> w = v \/ vi_version w < vi_version v) /\
  forall w a b, released r w -> u64_triple a -> u64_triple b -> vi_version v = code_of a -> vi_version w = code_of b ->
    triple_le b a.
Proof.
  intros Hr H. unfold query_latest_version in H. destruct (rev (elems (rg_versions r))) as [|[k x] rest] eqn:E; [discriminate|].
  cbn [snd] in H. inversion H; subst x. clear H.
  assert (El : elems (rg_versions r) = rev rest ++ [(k, v)]) by (rewrite <- (rev_involutive (elems (rg_versions r))), E; reflexivity).
  assert (Hkv : oget (rg_versions r) k = Some v) by (apply oget_In; rewrite El; apply in_or_app; right; left; reflexivity).
  pose proof (Hr _ _ Hkv) as Ev.
  assert (Hmax : forall w, released r w -> w = v \/ vi_version w < vi_version v).
  { intros w Hw. apply oget_In in Hw. rewrite El in Hw. apply in_app_or in Hw. destruct Hw as [Hw|[Hw|[]]].
    - right. rewrite Ev. pose proof (elems_ok (rg_versions r)) as Hs. rewrite El in Hs. clear - Hs Hw.
      induction (rev rest) as [|[a b] t IH]; [destruct Hw|]. cbn [app] in Hs. destruct Hw as [Hw|Hw].
      + inversion Hw; subst. eapply sortedb_gt; [exact Hs|]. apply in_or_app. right. left. reflexivity.
      + apply IH; [exact Hw|eapply sortedb_tail; exact Hs].
    - left. congruence. }
  split; [unfold released; rewrite Ev; exact Hkv|]. split; [exact Hmax|].
  intros w a b Hw Ha Hb Ea Eb. destruct (Hmax w Hw) as [->|L].
  - right. apply version_inj; congruence.
  - left. apply version_lt; [assumption..|]. congruence.
Qed.

Lemma registry_latest_none r er : query_latest_version r = Err er <-> er = ENoVersions /\ forall k, oget (rg_versions r) k = None.
Proof.
  unfold query_latest_version. destruct (rev (elems (rg_versions r))) as [|[k x] rest] eqn:E.
  - assert (El : elems (rg_versions r) = []) by (rewrite <- (rev_involutive (elems (rg_versions r))), E; reflexivity).
    split; [|intros [-> _]; reflexivity]. intros H. inversion H; subst. split; [reflexivity|]. intros k. unfold oget. rewrite El. reflexivity.
  - split; [discriminate|]. intros [_ H]. exfalso.
    assert (Hin : In (k, x) (elems (rg_versions r))) by (apply in_rev; rewrite E; left; reflexivity).
    apply oget_In in Hin. rewrite H in Hin. discriminate.
Qed.

(** A page: the first versions above the start, at most the limit (10 if none is given, never more than 50). *)
Lemma map_nth_error_snd (l : list (N * version_info)) i v : nth_error (map snd l) i = Some v -> exists k, nth_error l i = Some (k, v).
Proof.
  revert i. induction l as [|[k x] t IH]; intros [|i] H; cbn in H; try discriminate; [inversion H; subst; exists k; reflexivity|apply IH; exact H].
Qed.

Lemma registry_pages r : registry_ok r ->
  exists W, ascending W /\ (forall v, In v W <-> released r v) /\
    forall limit, limit <> Some 0 ->
      let page := fun start => Ok (query_versions r (option_map vi_version start) limit) in
      pages_of W (N.to_nat (N.min (dflt 10 limit) 50)) page /\
      forall fuel, (length W < fuel)%nat -> read_pages fuel page None = Ok W.
Proof.
  intros Hr. exists (map snd (elems (rg_versions r))).
  assert (Hk : forall x, In x (elems (rg_versions r)) -> vi_version (snd x) = fst x).
  { intros [k v] Hin. apply Hr. apply oget_In. exact Hin. }
  split; [apply sorted_ascending; [apply elems_ok|exact Hk]|]. split.
  - intros v. rewrite in_map_iff. split.
    + intros ([k w] & E & Hin). cbn in E. subst w. unfold released. pose proof (Hk _ Hin) as E. cbn in E. rewrite E. apply oget_In. exact Hin.
    + intros Hv. exists (vi_version v, v). split; [reflexivity|]. apply oget_In. exact Hv.
  - intros limit Hl page.
    assert (Hp : pages_of (map snd (elems (rg_versions r))) (N.to_nat (N.min (dflt 10 limit) 50)) page).
    { split.
      - unfold page, query_versions, take. cbn [option_map orange]. rewrite firstn_map. reflexivity.
      - intros i v Hn. unfold page, query_versions, take. cbn [option_map].
        destruct (map_nth_error_snd _ _ _ Hn) as (k & Hn').
        assert (E : vi_version v = k) by (apply (Hk (k, v)); eapply nth_error_In; exact Hn').
        rewrite E, (orange_skip _ i _ v Hn'), skipn_map, firstn_map. reflexivity. }
    split; [exact Hp|]. intros fuel Hf.
    apply (read_all _ (N.to_nat (N.min (dflt 10 limit) 50)) _ ltac:(destruct limit as [n|]; cbn [dflt]; [|vm_compute; lia]; assert (n <> 0) by congruence; lia) Hp fuel 0%nat).
    + lia.
    + cbn [skipn]. apply Hp.
Qed.

(** ** C45: upgrades *)
Lemma upgrade_iff self creator fuel r e sender target msgs e' out : registry_ok r ->
  (length (elems (rg_versions r)) < fuel)%nat ->
  enterprise_execute (registry_oracle self creator fuel r) e sender (EnUpgradeDao target msgs) = Ok (e', out) <->
  controller_of e = Some sender /\ en_version e < target /\ NoDup (map fst msgs) /\
  e' = mk_enterprise (en_creation e) (en_factory e) (en_versioning e) (en_metadata e) target (en_type e)
         (en_finalized e) (en_components e) /\
  exists vs, released_between r (en_version e) target vs /\
    out = map (fun v => plain (WasmMigrate self (vi_enterprise v) (dflt EMPTY_MSG (lget msgs (vi_version v))))) vs.
Proof.
  intros Hr Hf. cbn [enterprise_execute]. unfold upgrade_dao, guard.
  destruct (N.ltb_spec (en_version e) target) as [L|L]; cbn [bind]; [|split; [discriminate|intros (_ & H & _); lia]].
  destruct (en_controller_only e sender) as [c|er] eqn:Ec; cbn [bind].
  2:{ split; [discriminate|]. intros (Hc & _). exfalso. unfold controller_of in Hc. destruct (en_components e) as [c|] eqn:Eq; [|discriminate].
      assert (en_controller_only e sender = Ok c) by (apply en_controller_only_iff; split; [exact Eq|congruence]). congruence. }
  apply en_controller_only_iff in Ec. destruct Ec as (Ec & ->).
  pose proof (migrate_map_spec msgs) as Hm. destruct (migrate_map msgs) as [m|er]; cbn [bind].
  2:{ split; [discriminate|]. intros (_ & _ & Hn & _). tauto. }
  rewrite versions_between_spec by assumption. cbn [bind]. destruct Hm as [Hn Hm].
  assert (Eout : forall vs, map (fun v => plain (WasmMigrate self (vi_enterprise v) (dflt EMPTY_MSG (oget m (vi_version v))))) vs =
                 map (fun v => plain (WasmMigrate self (vi_enterprise v) (dflt EMPTY_MSG (lget msgs (vi_version v))))) vs)
    by (intros vs; apply map_ext; intros v; rewrite Hm; reflexivity).
  split.
  - intros H. inversion H; subst. split; [unfold controller_of; rewrite Ec; reflexivity|]. split; [exact L|]. split; [exact Hn|].
    split; [reflexivity|]. exists (between r (en_version e) target). split; [apply between_spec; exact Hr|]. apply Eout.
  - intros (_ & _ & _ & -> & vs & Hvs & ->). f_equal. f_equal.
    rewrite (released_between_unique _ _ _ _ _ Hvs (between_spec r (en_version e) target Hr)). apply Eout.
Qed.

(** Whatever registry answers: forward, by the controller, and only migrations of the contract itself. *)
Lemma upgrade_any_registry o e sender target msgs e' out :
  enterprise_execute o e sender (EnUpgradeDao target msgs) = Ok (e', out) ->
  controller_of e = Some sender /\ en_version e < en_version e' /\ en_version e' = target /\
  NoDup (map fst msgs) /\
  (forall m, In m out -> exists code b, m = plain (WasmMigrate (eo_self o) code b)).
Proof.
  cbn [enterprise_execute]. unfold upgrade_dao. intros H.
  apply bind_ok in H. destruct H as (u & Hg & H). apply guard_ok in Hg. apply N.ltb_lt in Hg.
  apply bind_ok in H. destruct H as (c & Hc & H). apply en_controller_only_iff in Hc. destruct Hc as (Hc & ->).
  apply bind_ok in H. destruct H as (m & Hm & H). pose proof (migrate_map_spec msgs) as Hn. rewrite Hm in Hn.
  apply bind_ok in H. destruct H as (vs & Hvs & H). inversion H; subst. cbn [en_version].
  split; [unfold controller_of; rewrite Hc; reflexivity|]. split; [exact Hg|]. split; [reflexivity|]. split; [apply Hn|].
  intros x Hx. apply in_map_iff in Hx. destruct Hx as (v & <- & _). eauto.
Qed.

Lemma en_version_step e v e' out : en_handle e v = Ok (e', out) ->
  en_version e' = en_version e \/
  exists o sender target msgs, v = EvCall o sender (EnUpgradeDao target msgs) /\ controller_of e = Some sender /\
    en_version e < en_version e'.
Proof.
  intros H. destruct v as [o s m|id r].
  - destruct m; cbn [en_handle enterprise_execute] in H.
    + left. apply bind_ok in H. destruct H as (x & H & E). inversion E; subst. unfold finalize_instantiation in H. binv H. clean. reflexivity.
    + left. apply bind_ok in H. destruct H as (x & H & E). inversion E; subst. unfold update_metadata in H. binv H. clean. reflexivity.
    + right. pose proof (upgrade_any_registry o e s v msgs e' out H) as (A & B & _). eauto 10.
    + left. unfold set_attestation in H. binv H. clean. reflexivity.
    + left. apply bind_ok in H. destruct H as (x & H & E). inversion E; subst. unfold remove_attestation in H. binv H. clean. reflexivity.
    + left. unfold en_execute_msgs in H. binv H. clean. reflexivity.
    + left. apply bind_ok in H. destruct H as (x & H & E). inversion E; subst. unfold update_en_config in H. binv H. clean. reflexivity.
  - left. cbn [en_handle] in H. unfold enterprise_reply in H. destruct (id =? 1); [|discriminate]. destruct r as [[a|]|]; try discriminate.
    binv H. clean. reflexivity.
Qed.

Lemma en_version_history e l : en_version e <= en_version (en_run e l).
Proof.
  revert e. induction l as [|v t IH]; intros e; [cbn; lia|]. cbn [en_run fold_left].
  assert (en_version e <= en_version (en_step e v)).
  { unfold en_step. destruct (en_handle e v) as [[e' out]|] eqn:E; [|lia]. apply en_version_step in E.
    destruct E as [E|(? & ? & ? & ? & _ & _ & E)]; lia. }
  specialize (IH (en_step e v)). unfold en_run in IH. lia.
Qed.

(** After an upgrade to a version that is not released, no attestation can be set until it is. *)
Lemma unreleased_no_attestation self creator fuel r e sender text :
  oget (rg_versions r) (en_version e) = None ->
  exists er, enterprise_execute (registry_oracle self creator fuel r) e sender (EnSetAttestation text) = Err er.
Proof.
  intros H. cbn [enterprise_execute]. unfold set_attestation. destruct (en_controller_only e sender); cbn [bind]; [|eauto].
  cbn [registry_oracle eo_version]. unfold query_version. rewrite H. cbn. eauto.
Qed.

(** ** C47: wiring *)
Lemma finalize_iff o e sender c e' out :
  enterprise_execute o e sender (EnFinalize c) = Ok (e', out) <->
  en_finalized e = false /\ sender = eo_creator o /\ sender <> 0 /\ valid_components c /\ out = [] /\
  e' = mk_enterprise (en_creation e) (en_factory e) (en_versioning e) (en_metadata e) (en_version e) (en_type e)
         true (Some c).
Proof.
  cbn [enterprise_execute]. unfold finalize_instantiation. split.
  - intros H. apply bind_ok in H. destruct H as (x & H & E). inversion E; subst. clear E.
    apply bind_ok in H. destruct H as (u & Hf & H). apply guard_ok in Hf. apply negb_true_iff in Hf.
    apply bind_ok in H. destruct H as (cr & Hcr & H). apply addr_validate_ok in Hcr. destruct Hcr as [Ecr Hcr].
    apply bind_ok in H. destruct H as (u2 & Hs & H). apply guard_ok in Hs. apply N.eqb_eq in Hs.
    binv H. clean. destruct c as [g c t op f mb cl a]. cbn [c_governance c_controller c_treasury c_outposts c_funds c_membership c_council c_attestation] in *.
    assert (Ha : a <> Some 0 /\ x6 = a).
    { unfold validate_opt in *. destruct a as [a|].
      - match goal with H : _ = Ok x6 |- _ => apply bind_ok in H; destruct H as (b & Hb7 & H) end.
        apply addr_validate_ok in Hb7. destruct Hb7 as [<- Hb7]. clean. split; [congruence|reflexivity].
      - clean. split; [discriminate|reflexivity]. }
    destruct Ha as [Ha ->].
    split; [exact Hf|]. split; [congruence|]. split; [congruence|]. split; [repeat split; assumption|]. split; reflexivity.
  - intros (Hf & -> & Hs & (V1 & V2 & V3 & V4 & V5 & V6 & V7 & V8) & -> & ->). rewrite Hf. cbn [negb guard bind].
    unfold addr_validate. apply N.eqb_neq in Hs, V1, V2, V3, V4, V5, V6, V7. rewrite Hs. cbn [bind]. unfold guard. rewrite N.eqb_refl. cbn [bind].
    rewrite V1, V2, V3, V4, V5, V6, V7. cbn [bind].
    destruct c as [g c t op f mb cl a]. cbn [c_governance c_controller c_treasury c_outposts c_funds c_membership c_council c_attestation] in *.
    unfold validate_opt, addr_validate. destruct a as [a|]; [|reflexivity]. destruct (N.eqb_spec a 0); [congruence|]. reflexivity.
Qed.

Lemma management_controller_only o e sender m e' out :
  enterprise_execute o e sender m = Ok (e', out) -> is_finalize m = false -> controller_of e = Some sender.
Proof.
  intros H Hm. destruct (controller_of e) as [c|] eqn:E; [destruct (N.eq_dec c sender) as [->|Hne]; [reflexivity|]|].
  all: exfalso; destruct (en_controller_only_no e sender ltac:(unfold addr in *; congruence)) as (er & Her);
    destruct m; cbn [is_finalize] in Hm; try discriminate; cbn [enterprise_execute] in H;
    unfold update_metadata, upgrade_dao, set_attestation, remove_attestation, en_execute_msgs, update_en_config in H;
    rewrite ?Her in H; cbn [bind] in H; try discriminate; apply bind_ok in H; destruct H as (u & _ & H); discriminate.
Qed.

(** What each management message does, and nothing else. *)
Lemma metadata_iff o e sender u e' out :
  enterprise_execute o e sender (EnUpdateMetadata u) = Ok (e', out) <->
  controller_of e = Some sender /\ out = [] /\
  en_creation e' = en_creation e /\ en_factory e' = en_factory e /\ en_versioning e' = en_versioning e /\
  en_version e' = en_version e /\ en_type e' = en_type e /\ en_finalized e' = en_finalized e /\
  en_components e' = en_components e /\
  changed (md_name (en_metadata e)) (mu_name u) (md_name (en_metadata e')) /\
  changed (md_description (en_metadata e)) (mu_description u) (md_description (en_metadata e')) /\
  changed (md_logo (en_metadata e)) (mu_logo u) (md_logo (en_metadata e')) /\
  changed (md_github (en_metadata e)) (mu_github u) (md_github (en_metadata e')) /\
  changed (md_discord (en_metadata e)) (mu_discord u) (md_discord (en_metadata e')) /\
  changed (md_twitter (en_metadata e)) (mu_twitter u) (md_twitter (en_metadata e')) /\
  changed (md_telegram (en_metadata e)) (mu_telegram u) (md_telegram (en_metadata e')).
Proof.
  assert (Hap : forall A (a : A) m, changed a m (apply_change a m)) by (intros A a [x|]; reflexivity).
  assert (Hun : forall A (a : A) m x, changed a m x -> x = apply_change a m) by (intros A a [y|] x; cbn; auto).
  split.
  - intros H. pose proof (management_controller_only _ _ _ _ _ _ H eq_refl) as Hc. cbn [enterprise_execute] in H.
    apply bind_ok in H. destruct H as (x & H & E). inversion E; subst. unfold update_metadata in H. binv H. clean.
    cbn [en_creation en_factory en_versioning en_version en_type en_finalized en_components en_metadata md_name md_description md_logo md_github md_discord md_twitter md_telegram].
    repeat (split; [auto|]). auto.
  - intros (Hc & -> & E1 & E2 & E3 & E4 & E5 & E6 & E7 & M1 & M2 & M3 & M4 & M5 & M6 & M7). cbn [enterprise_execute]. unfold update_metadata.
    unfold controller_of in Hc. destruct (en_components e) as [c|] eqn:Ec; [|discriminate].
    assert (Hco : en_controller_only e sender = Ok c) by (apply en_controller_only_iff; split; [exact Ec|congruence]).
    rewrite Hco. cbn [bind]. f_equal. f_equal. destruct e' as [cr f v md ver t fin co]. destruct md as [n1 n2 n3 n4 n5 n6 n7].
    cbn [en_creation en_factory en_versioning en_version en_type en_finalized en_components en_metadata md_name md_description md_logo md_github md_discord md_twitter md_telegram] in *.
    apply Hun in M1, M2, M3, M4, M5, M6, M7. congruence.
Qed.

Lemma config_iff o e sender vm fm e' out :
  enterprise_execute o e sender (EnUpdateConfig vm fm) = Ok (e', out) <->
  controller_of e = Some sender /\ out = [] /\ vm <> Change 0 /\ fm <> Change 0 /\
  changed (en_versioning e) vm (en_versioning e') /\ changed (en_factory e) fm (en_factory e') /\
  en_creation e' = en_creation e /\ en_metadata e' = en_metadata e /\
  en_version e' = en_version e /\ en_type e' = en_type e /\ en_finalized e' = en_finalized e /\
  en_components e' = en_components e.
Proof.
  split.
  - intros H. pose proof (management_controller_only _ _ _ _ _ _ H eq_refl) as Hc. cbn [enterprise_execute] in H.
    apply bind_ok in H. destruct H as (x & H & E). inversion E; subst. unfold update_en_config in H.
    apply bind_ok in H. destruct H as (c & _ & H). apply bind_ok in H. destruct H as (v & Hv & H).
    apply bind_ok in H. destruct H as (f & Hf & H). clean.
    cbn [en_creation en_factory en_versioning en_version en_type en_finalized en_components en_metadata].
    assert (Hvv : vm <> Change 0 /\ changed (en_versioning e) vm v).
    { destruct vm as [a|]; cbn [changed]; [apply addr_validate_ok in Hv; destruct Hv as [<- Hv]; split; [congruence|reflexivity]|clean; split; [discriminate|reflexivity]]. }
    assert (Hff : fm <> Change 0 /\ changed (en_factory e) fm f).
    { destruct fm as [a|]; cbn [changed]; [apply addr_validate_ok in Hf; destruct Hf as [<- Hf]; split; [congruence|reflexivity]|clean; split; [discriminate|reflexivity]]. }
    destruct Hvv, Hff. repeat (split; [auto|]). auto.
  - intros (Hc & -> & Hv & Hf & Cv & Cf & E1 & E2 & E3 & E4 & E5 & E6). cbn [enterprise_execute]. unfold update_en_config.
    unfold controller_of in Hc. destruct (en_components e) as [c|] eqn:Ec; [|discriminate].
    assert (Hco : en_controller_only e sender = Ok c) by (apply en_controller_only_iff; split; [exact Ec|congruence]).
    rewrite Hco. cbn [bind].
    assert (Hval : forall (m : modify N) (old now : addr), m <> Change 0 -> changed old m now ->
              (match m with Change a => addr_validate a | NoChange => Ok old end) = Ok now).
    { intros [a|] old now Hm Hch; cbn [changed] in Hch; subst; [|reflexivity]. unfold addr_validate. destruct (N.eqb_spec a 0); [congruence|reflexivity]. }
    rewrite (Hval vm _ _ Hv Cv). cbn [bind]. rewrite (Hval fm _ _ Hf Cf). cbn [bind]. f_equal. f_equal.
    destruct e' as [cr f v md ver t fin co].
    cbn [en_creation en_factory en_versioning en_version en_type en_finalized en_components en_metadata] in *. congruence.
Qed.

Lemma custom_iff o e sender msgs e' out :
  enterprise_execute o e sender (EnExecuteMsgs msgs) = Ok (e', out) <->
  controller_of e = Some sender /\ e' = e /\ exists l, msgs = map Some l /\ out = map plain l.
Proof.
  cbn [enterprise_execute]. unfold en_execute_msgs, parse_msgs.
  assert (Hp : forall msgs l, map_res (fun m : option cosmos_msg => ok_or m EInvalidArgument) msgs = Ok l <-> msgs = map Some l).
  { clear. induction msgs as [|m t IH]; intros l; cbn [map_res].
    - split; [intros H; inversion H; reflexivity|]. intros H. destruct l; [reflexivity|discriminate].
    - destruct m as [m|]; cbn [ok_or bind]; [|split; [discriminate|destruct l; discriminate]].
      destruct (map_res _ t) as [q|er] eqn:E; cbn [bind].
      + split; [intros H; inversion H; subst; cbn [map]; f_equal; apply IH; reflexivity|]. intros H. destruct l as [|x l']; [discriminate|].
        cbn [map] in H. inversion H; subst. f_equal. f_equal. pose proof (proj2 (IH l') eq_refl) as E2. congruence.
      + split; [discriminate|]. intros H. destruct l as [|x l']; [discriminate|]. cbn [map] in H. inversion H; subst.
        pose proof (proj2 (IH l') eq_refl). congruence. }
  split.
  - intros H. apply bind_ok in H. destruct H as (c & Hc & H). apply en_controller_only_iff in Hc. destruct Hc as (Hc & ->).
    apply bind_ok in H. destruct H as (l & Hl & H). inversion H; subst. unfold controller_of. rewrite Hc. repeat split.
    exists l. split; [apply Hp; exact Hl|reflexivity].
  - intros (Hc & -> & l & -> & ->). unfold controller_of in Hc. destruct (en_components e) as [c|] eqn:Ec; [|discriminate].
    assert (Hco : en_controller_only e sender = Ok c) by (apply en_controller_only_iff; split; [exact Ec|congruence]).
    rewrite Hco. cbn [bind]. rewrite (proj2 (Hp (map Some l) l) eq_refl). reflexivity.
Qed.

Lemma set_attestation_iff o e sender text e' out :
  enterprise_execute o e sender (EnSetAttestation text) = Ok (e', out) <->
  controller_of e = Some sender /\ e' = e /\ exists v, eo_version o (en_versioning e) (en_version e) = Ok v /\
    out = [mk_sub (WasmInstantiate None (vi_attestation v) (InitAttestation text)) (ReplySuccess 1)].
Proof.
  cbn [enterprise_execute]. unfold set_attestation. split.
  - intros H. apply bind_ok in H. destruct H as (c & Hc & H). apply en_controller_only_iff in Hc. destruct Hc as (Hc & ->).
    apply bind_ok in H. destruct H as (v & Hv & H). inversion H; subst. unfold controller_of. rewrite Hc. eauto 10.
  - intros (Hc & -> & v & Hv & ->). unfold controller_of in Hc. destruct (en_components e) as [c|] eqn:Ec; [|discriminate].
    assert (Hco : en_controller_only e sender = Ok c) by (apply en_controller_only_iff; split; [exact Ec|congruence]).
    rewrite Hco. cbn [bind]. rewrite Hv. reflexivity.
Qed.

Lemma reply_iff e id r e' out :
  enterprise_reply e id r = Ok (e', out) <->
  id = 1 /\ out = [] /\ exists a c, r = ROk (Some a) /\ a <> 0 /\ en_components e = Some c /\
  e' = mk_enterprise (en_creation e) (en_factory e) (en_versioning e) (en_metadata e) (en_version e) (en_type e)
         (en_finalized e) (Some (mk_components (c_governance c) (c_controller c) (c_treasury c) (c_outposts c)
                                   (c_funds c) (c_membership c) (c_council c) (Some a))).
Proof.
  unfold enterprise_reply. split.
  - intros H. destruct (N.eqb_spec id 1) as [->|]; [|discriminate]. destruct r as [[a|]|]; try discriminate.
    apply bind_ok in H. destruct H as (b & Hb & H). apply addr_validate_ok in Hb. destruct Hb as [<- Hb].
    apply bind_ok in H. destruct H as (c & Hc & H). apply ok_or_ok in Hc. inversion H; subst. eauto 10.
  - intros (-> & -> & a & c & -> & Ha & Hc & ->). cbn [N.eqb Pos.eqb]. unfold addr_validate.
    destruct (N.eqb_spec a 0); [congruence|]. cbn [bind]. rewrite Hc. reflexivity.
Qed.

Lemma remove_attestation_iff o e sender e' out :
  enterprise_execute o e sender EnRemoveAttestation = Ok (e', out) <->
  out = [] /\ exists c, en_components e = Some c /\ sender = c_controller c /\
  e' = mk_enterprise (en_creation e) (en_factory e) (en_versioning e) (en_metadata e) (en_version e) (en_type e)
         (en_finalized e) (Some (mk_components (c_governance c) (c_controller c) (c_treasury c) (c_outposts c)
                                   (c_funds c) (c_membership c) (c_council c) None)).
Proof.
  cbn [enterprise_execute]. unfold remove_attestation. split.
  - intros H. apply bind_ok in H. destruct H as (x & H & E). inversion E; subst. apply bind_ok in H. destruct H as (c & Hc & H).
    apply en_controller_only_iff in Hc. destruct Hc as (Hc & ->). inversion H; subst. split; [reflexivity|]. exists c. auto.
  - intros (-> & c & Hc & -> & ->). assert (Hco : en_controller_only e (c_controller c) = Ok c) by (apply en_controller_only_iff; auto).
    rewrite Hco. reflexivity.
Qed.

Lemma en_run_cons e v l : en_run e (v :: l) = en_run (en_step e v) l.
Proof. reflexivity. Qed.
Lemma en_step_ok e v e' out : en_handle e v = Ok (e', out) -> en_step e v = e'.
Proof. unfold en_step. intros ->. reflexivity. Qed.
Lemma en_step_err e v er : en_handle e v = Err er -> en_step e v = e.
Proof. unfold en_step. intros ->. reflexivity. Qed.

(** Once wired, only the attestation contract can change, and only by the controller or by the reply to its order. *)
Lemma en_wired_step e v e' out c : en_ok e -> en_components e = Some c -> en_handle e v = Ok (e', out) ->
  en_ok e' /\ en_creation e' = en_creation e /\ en_type e' = en_type e /\ en_finalized e' = true /\
  exists c', en_components e' = Some c' /\ same_wiring c' c /\
    (c_attestation c' = c_attestation c \/
     (exists o, v = EvCall o (c_controller c) EnRemoveAttestation /\ c_attestation c' = None) \/
     (exists a, v = EvReply 1 (ROk (Some a)) /\ c_attestation c' = Some a)).
Proof.
  intros Hok Hc H.
  assert (Hself : same_wiring c c) by (repeat split).
  assert (Hfin : en_finalized e = true) by (unfold en_ok in Hok; rewrite Hok, Hc; reflexivity).
  destruct v as [o s m|id r].
  - cbn [en_handle] in H. destruct m.
    + apply finalize_iff in H. destruct H as (Hf & _). congruence.
    + apply metadata_iff in H. destruct H as (_ & _ & E1 & E2 & E3 & E4 & E5 & E6 & E7 & _).
      unfold en_ok. rewrite E7, E6, E1, E5, Hfin, Hc. repeat (split; [reflexivity|]). exists c. auto.
    + cbn [enterprise_execute] in H. unfold upgrade_dao in H. binv H. clean. unfold en_ok.
      cbn [en_finalized en_components en_creation en_type]. rewrite Hfin, Hc. repeat (split; [reflexivity|]). exists c. auto.
    + apply set_attestation_iff in H. destruct H as (_ & -> & _). repeat (split; [assumption||reflexivity|]). exists c. auto.
    + apply remove_attestation_iff in H. destruct H as (-> & c' & Hc' & -> & ->). rewrite Hc in Hc'. inversion Hc'; subst.
      unfold en_ok. cbn [en_finalized en_components en_creation en_type is_some]. rewrite Hfin. repeat (split; [reflexivity|]).
      eexists. split; [reflexivity|]. split; [repeat split|]. right. left. exists o. auto.
    + apply custom_iff in H. destruct H as (_ & -> & _). repeat (split; [assumption||reflexivity|]). exists c. auto.
    + apply config_iff in H. destruct H as (_ & _ & _ & _ & _ & _ & E1 & E2 & E3 & E4 & E5 & E6).
      unfold en_ok. rewrite E6, E5, E1, E4, Hfin, Hc. repeat (split; [reflexivity|]). exists c. auto.
  - cbn [en_handle] in H. apply reply_iff in H. destruct H as (-> & -> & a & c' & -> & Ha & Hc' & ->). rewrite Hc in Hc'. inversion Hc'; subst.
    unfold en_ok. cbn [en_finalized en_components en_creation en_type is_some]. rewrite Hfin. repeat (split; [reflexivity|]).
    eexists. split; [reflexivity|]. split; [repeat split|]. right. right. exists a. auto.
Qed.

Lemma en_wired_history e l c : en_ok e -> en_components e = Some c ->
  en_ok (en_run e l) /\ en_creation (en_run e l) = en_creation e /\ en_type (en_run e l) = en_type e /\
  en_finalized (en_run e l) = true /\ exists c', en_components (en_run e l) = Some c' /\ same_wiring c' c.
Proof.
  revert e c. induction l as [|v t IH]; intros e c Hok Hc.
  - cbn. repeat (split; [assumption||reflexivity|]). split; [unfold en_ok in Hok; rewrite Hok, Hc; reflexivity|]. exists c. split; [exact Hc|repeat split].
  - rewrite en_run_cons. destruct (en_handle e v) as [[e' out]|er] eqn:E.
    + destruct (en_wired_step _ _ _ _ _ Hok Hc E) as (Hok' & E1 & E2 & E3 & c1 & Hc1 & Hw & _).
      destruct (IH e' c1 Hok' Hc1) as (A1 & A2 & A3 & A4 & c2 & Hc2 & Hw2). rewrite (en_step_ok _ _ _ _ E).
      split; [exact A1|]. split; [congruence|]. split; [congruence|]. split; [exact A4|]. exists c2. split; [exact Hc2|].
      unfold same_wiring in *. intuition congruence.
    + rewrite (en_step_err _ _ _ E). apply (IH e c Hok Hc).
Qed.

(** The state a new contract starts in, and what can happen before it is wired. *)
Lemma en_unwired_step e v e' out : en_ok e -> en_components e = None -> en_handle e v = Ok (e', out) ->
  exists o c, v = EvCall o (eo_creator o) (EnFinalize c) /\ valid_components c /\ en_components e' = Some c /\ en_ok e' /\ out = [].
Proof.
  intros Hok Hc H. destruct v as [o s m|id r].
  - cbn [en_handle] in H. destruct (is_finalize m) eqn:Em.
    + destruct m; try discriminate. apply finalize_iff in H. destruct H as (_ & -> & _ & Hv & -> & ->). exists o, c. repeat (split; [auto; fail || exact Hv|]). reflexivity.
    + exfalso. apply management_controller_only in H; [|exact Em]. unfold controller_of in H. rewrite Hc in H. discriminate.
  - exfalso. cbn [en_handle] in H. apply reply_iff in H. destruct H as (_ & _ & a & c & _ & _ & H & _). congruence.
Qed.

Lemma en_instantiate_ok e f r cd t v md x : enterprise_instantiate e f r cd t v md = Ok x <->
  f <> 0 /\ r <> 0 /\ x = mk_enterprise (dflt (e_time e) cd) f r md v t false None.
Proof.
  unfold enterprise_instantiate, addr_validate. destruct (N.eqb_spec f 0); cbn [bind]; [split; [discriminate|intros [H _]; congruence]|].
  destruct (N.eqb_spec r 0); cbn [bind]; [split; [discriminate|intros (_ & H & _); congruence]|].
  split; [intros H; inversion H; auto|intros (_ & _ & ->); reflexivity].
Qed.

Lemma en_wired_once f r cd t v md en x l : enterprise_instantiate en f r cd t v md = Ok x ->
  en_ok (en_run x l) /\ en_type (en_run x l) = t /\
  forall l1 o s c l2 e', l = l1 ++ EvCall o s (EnFinalize c) :: l2 ->
    en_handle (en_run x l1) (EvCall o s (EnFinalize c)) = Ok e' ->
    s = eo_creator o /\ en_components (en_run x l1) = None /\
    exists c', en_components (en_run x l) = Some c' /\ same_wiring c' c.
Proof.
  intros Hi. apply en_instantiate_ok in Hi. destruct Hi as (_ & _ & ->).
  set (x := mk_enterprise (dflt (e_time en) cd) f r md v t false None).
  assert (Hx : en_ok x) by reflexivity.
  assert (Gen : forall l e, en_ok e -> en_ok (en_run e l) /\ en_type (en_run e l) = en_type e).
  { clear. induction l as [|w q IH]; intros e Hok; [auto|]. rewrite en_run_cons.
    destruct (en_handle e w) as [[e' out]|er] eqn:E; [|rewrite (en_step_err _ _ _ E); apply IH; exact Hok]. rewrite (en_step_ok _ _ _ _ E). destruct (en_components e) as [c|] eqn:Ec.
    - destruct (en_wired_step _ _ _ _ _ Hok Ec E) as (A & _ & B & _). destruct (IH e' A) as [C D]. split; [exact C|congruence].
    - destruct (en_unwired_step _ _ _ _ Hok Ec E) as (o & c & -> & Hv & Hc & A & _). destruct (IH e' A) as [C D]. split; [exact C|].
      rewrite D. cbn [en_handle] in E. apply finalize_iff in E. destruct E as (_ & _ & _ & _ & _ & ->). reflexivity. }
  destruct (Gen l x Hx) as [A B]. split; [exact A|]. split; [exact B|].
  intros l1 o s c l2 e' -> Hh. destruct e' as [e' out]. pose proof Hh as Hh0. cbn [en_handle] in Hh. apply finalize_iff in Hh.
  destruct Hh as (Hfin & -> & _ & _ & -> & Ee'). split; [reflexivity|].
  destruct (Gen l1 x Hx) as [A1 _]. split.
  - unfold en_ok in A1. rewrite Hfin in A1. destruct (en_components (en_run x l1)); [discriminate|reflexivity].
  - unfold en_run at 1. rewrite fold_left_app. cbn [fold_left]. fold (en_run x l1).
    rewrite (en_step_ok _ _ _ _ Hh0). fold (en_run e' l2).
    destruct (en_wired_history e' l2 c) as (_ & _ & _ & _ & c' & H1 & H2); [subst e'; reflexivity|subst e'; reflexivity|].
    exists c'. auto.
Qed.

(** ** C64: migration of the root contract *)
Lemma migrate_spec o e out : enterprise_migrate o e = Ok out <->
  exists v c, eo_version o (en_versioning e) (version 1 2 1) = Ok v /\ en_components e = Some c /\
    out = [plain (WasmMigrate (c_outposts c) (vi_outposts v) EMPTY_MSG);
           plain (WasmMigrate (c_funds c) (vi_funds v) EMPTY_MSG);
           plain (WasmMigrate (c_membership c)
                    (match en_type e with DaoDenom => vi_denom v | DaoToken => vi_token v | DaoNft => vi_nft v
                                        | DaoMultisig => vi_multisig v end) EMPTY_MSG);
           plain (WasmMigrate (c_council c) (vi_multisig v) EMPTY_MSG)].
Proof.
  unfold enterprise_migrate. destruct (eo_version o (en_versioning e) (version 1 2 1)) as [v|er]; cbn [bind];
    [|split; [discriminate|intros (? & ? & ? & _); discriminate]].
  destruct (en_components e) as [c|]; cbn [ok_or bind]; [|split; [discriminate|intros (? & ? & _ & ? & _); discriminate]].
  split; [intros H; inversion H; eauto|]. intros (v' & c' & Hv & Hc & ->). inversion Hv; inversion Hc; subst. reflexivity.
Qed.

(** ** C41: attestation *)
Lemma signed_history a l u : u <> 0 ->
  has_user_signed (fold_left sign_attestation l a) u = Ok true <-> has_user_signed a u = Ok true \/ In u l.
Proof.
  intros Hu. unfold has_user_signed, addr_validate. destruct (N.eqb_spec u 0); [congruence|]. cbn [bind].
  assert (G : forall l a, ohas (at_signed (fold_left sign_attestation l a)) u = true <-> ohas (at_signed a) u = true \/ In u l).
  { clear. induction l as [|s t IH]; intros a; cbn [fold_left In]; [tauto|]. rewrite IH. cbn [sign_attestation at_signed].
    unfold ohas. rewrite oget_oset. destruct (N.eqb_spec s u) as [->|Hne]; cbn [is_some]; [tauto|]. unfold addr in *. intuition congruence. }
  specialize (G l a). destruct (ohas (at_signed (fold_left sign_attestation l a)) u), (ohas (at_signed a) u); intuition (try congruence; try discriminate).
Qed.

Lemma restricted_iff signed e u : en_components e <> None ->
  (query_is_restricted_user signed e u = Ok true <-> must_sign signed e u) /\
  (attestation_of e = None -> query_is_restricted_user signed e u = Ok false).
Proof.
  intros Hc. unfold query_is_restricted_user, must_sign, attestation_of. destruct (en_components e) as [c|]; [|congruence].
  cbn [ok_or bind]. destruct (c_attestation c) as [a|]; split.
  - destruct (signed a u) as [b|er] eqn:E; cbn [bind].
    + split; [intros H; inversion H as [Hb]; exists a; split; [reflexivity|]; destruct b; [discriminate|exact E]|].
      intros (a' & Ha & Hs). inversion Ha; subst. rewrite E in Hs. inversion Hs; subst. reflexivity.
    + split; [discriminate|]. intros (a' & Ha & Hs). inversion Ha; subst. congruence.
  - discriminate.
  - split; [discriminate|]. intros (a & Ha & _). discriminate.
  - reflexivity.
Qed.

Ltac peel H :=
  repeat match type of H with
  | bind _ _ = Ok _ =>
      let Hx := fresh "Hx" in let a := fresh "a" in
      apply bind_ok in H; destruct H as (a & Hx & H);
      try (apply addr_validate_ok in Hx; destruct Hx as [Hx _]; symmetry in Hx; subst a)
  end.

Lemma restricted_cannot_govern o self s e sender coins m u signed en :
  en_components en <> None -> co_restricted o u = query_is_restricted_user signed en u ->
  must_sign signed en u -> acting sender m = Some u ->
  forall r, ctl_execute o self s e sender coins m <> Ok r.
Proof.
  intros Hc Ho Hm Ha r H. apply (proj1 (restricted_iff signed en u Hc)) in Hm. rewrite <- Ho in Hm.
  assert (Hu : unrestricted o u = Err ERestricted) by (unfold unrestricted; rewrite Hm; reflexivity).
  assert (Hcp : forall acts d, create_proposal o s e acts d u = Err ERestricted) by (intros; unfold create_proposal; rewrite Hu; reflexivity).
  destruct m; cbn [acting] in Ha; try discriminate; inversion Ha; subst; cbn [ctl_execute] in H.
  - unfold create_proposal_coins in H. peel H. rewrite Hcp in H. discriminate.
  - unfold create_proposal_nft in H. peel H. rewrite Hcp in Hx6. discriminate.
  - unfold create_council_proposal in H. rewrite Hu in H. discriminate.
  - unfold ctl_cast_vote in H. rewrite Hu in H. discriminate.
  - unfold ctl_cast_council_vote in H. rewrite Hu in H. discriminate.
  - unfold execute_proposal in H. rewrite Hu in H. discriminate.
  - destruct hook as [[acts owner]|]; [|discriminate]. unfold create_proposal_cw20 in H.
    peel H. rewrite Hcp in H. discriminate.
Qed.

Lemma restricted_cannot_claim o f sender coins u ns cs signed en :
  en_components en <> None -> (query_is_restricted_user signed en u = Ok true -> fo_restricted o u = true) ->
  must_sign signed en u ->
  forall r, funds_execute o f sender coins (FClaim u ns cs) <> Ok r.
Proof.
  intros Hc Ho Hm r. apply (proj1 (restricted_iff signed en u Hc)) in Hm. apply Ho in Hm.
  cbn [funds_execute]. unfold claim_rewards. rewrite Hm. discriminate.
Qed.

Lemma incr_weight m u n m' w : increment_member_weight m u n = Ok (m', w) ->
  forall v, v <> u -> member_weight m' v = member_weight m v.
Proof.
  unfold increment_member_weight. intros H v Hv. binv H. clean. unfold member_weight, set_member_weight. cbn [m_weights with_member_weights].
  apply ogetN_oset_ne. congruence.
Qed.
Lemma decr_weight m u n m' w : decrement_member_weight m u n = Ok (m', w) ->
  forall v, member_weight m' v <= member_weight m v.
Proof.
  unfold decrement_member_weight. intros H v. binv H. clean. unfold member_weight, set_member_weight in *. cbn [m_weights with_member_weights].
  rewrite ogetN_oset. destruct (N.eqb_spec u v); subst; lia.
Qed.
Lemma incr_total m e n m' : increment_total_weight m e n = Ok m' -> forall v, member_weight m' v = member_weight m v.
Proof. unfold increment_total_weight. intros H v. binv H. clean. reflexivity. Qed.
Lemma decr_total m e n m' : decrement_total_weight m e n = Ok m' -> forall v, member_weight m' v = member_weight m v.
Proof. unfold decrement_total_weight. intros H v. binv H. clean. reflexivity. Qed.
Lemma restricted_not_ok o u x : mo_restricted o u = Ok true -> not_restricted o u = Ok x -> False.
Proof. unfold not_restricted. intros ->. discriminate. Qed.
Lemma add_claim_weight s u n r s' : add_claim s u n r = Ok s' -> st_members s' = st_members s.
Proof. unfold add_claim. intros H. binv H. clean. reflexivity. Qed.
Lemma add_nft_claim_weight s u n r s' : add_nft_claim s u n r = Ok s' -> ns_members s' = ns_members s.
Proof. unfold add_nft_claim. intros H. binv H. clean. reflexivity. Qed.

Lemma add_stake_others s e u n s' out v : add_stake s e u n = Ok (s', out) -> v <> u ->
  member_weight (st_members s') v = member_weight (st_members s) v.
Proof.
  unfold add_stake. intros H Hv. apply bind_ok in H. destruct H as ([m w] & Hi & H). apply bind_ok in H. destruct H as (m2 & Ht & H).
  inversion H; subst. cbn [st_members st_with_members]. rewrite (incr_total _ _ _ _ Ht). eapply incr_weight; eassumption.
Qed.

Lemma stake_execute_weight o s e sender m s' out u : stake_execute o s e sender m = Ok (s', out) ->
  member_weight (st_members s') u <= member_weight (st_members s) u.
Proof.
  intros H. destruct m; cbn [stake_execute] in H.
  - unfold unstake in H. apply bind_ok in H. destruct H as (? & _ & H). apply bind_ok in H. destruct H as ([m w] & Hd & H).
    apply bind_ok in H. destruct H as (m2 & Ht & H). apply bind_ok in H. destruct H as (r & _ & H). apply bind_ok in H. destruct H as (s2 & Hc & H).
    inversion H; subst. apply add_claim_weight in Hc. rewrite Hc. cbn [st_members st_with_members]. rewrite (decr_total _ _ _ _ Ht).
    eapply decr_weight; eassumption.
  - unfold claim_stake in H. apply bind_ok in H. destruct H as (? & _ & H). apply bind_ok in H. destruct H as (? & _ & H).
    apply bind_ok in H. destruct H as ([cl t] & _ & H). inversion H; subst. cbn [st_members st_with_claims]. lia.
  - unfold update_period in H. apply bind_ok in H. destruct H as (x & Hx & H). inversion H; subst. apply bind_ok in Hx. destruct Hx as (? & _ & Hx).
    inversion Hx; subst. destruct p; cbn [st_members st_with_period]; lia.
  - apply bind_ok in H. destruct H as (x & Hx & H). inversion H; subst. unfold add_hook in Hx. binv Hx. clean. cbn [st_members st_with_members]. apply N.le_refl.
  - apply bind_ok in H. destruct H as (x & Hx & H). inversion H; subst. unfold remove_hook in Hx. binv Hx. clean. cbn [st_members st_with_members]. apply N.le_refl.
Qed.

Lemma add_claims_members s n l s' : add_claims s n l = Ok s' -> st_members s' = st_members s.
Proof.
  unfold add_claims. intros H. apply bind_ok in H. destruct H as ([s2 t] & Hf & H). apply bind_ok in H. destruct H as (? & _ & H). inversion H; subst. clear H.
  revert Hf. generalize 0 as t0. revert s. induction l as [|[[u a] r] q IH]; intros s t0 Hf; cbn [fold_res] in Hf.
  - inversion Hf; reflexivity.
  - apply bind_ok in Hf. destruct Hf as ([s1 t1] & H1 & Hf). apply bind_ok in H1. destruct H1 as (u' & _ & H1). apply bind_ok in H1. destruct H1 as (s3 & Hc & H1).
    apply bind_ok in H1. destruct H1 as (t3 & _ & H1). inversion H1; subst. rewrite (IH _ _ Hf). eapply add_claim_weight; eassumption.
Qed.

Lemma add_stakes_others o s e n l s' out v : mo_restricted o v = Ok true -> add_stakes o s e n l = Ok (s', out) ->
  member_weight (st_members s') v = member_weight (st_members s) v.
Proof.
  intros Hr H. unfold add_stakes in H. apply bind_ok in H. destruct H as ([[m ch] sum] & Hf & H). apply bind_ok in H. destruct H as (? & _ & H).
  apply bind_ok in H. destruct H as (m2 & Ht & H). inversion H; subst. cbn [st_members st_with_members]. rewrite (incr_total _ _ _ _ Ht).
  clear H Ht. revert Hf. generalize (st_members s) as m0, (@nil weight_change) as c0, 0 as t0.
  induction l as [|[u a] q IH]; intros m0 c0 t0 Hf; cbn [fold_res] in Hf; [inversion Hf; reflexivity|].
  apply bind_ok in Hf. destruct Hf as ([[m1 c1] t1] & H1 & Hf). rewrite (IH _ _ _ Hf). unfold add_stakes_one in H1.
  destruct (a =? 0); [inversion H1; reflexivity|]. apply bind_ok in H1. destruct H1 as (y & Hn & H1).
  apply bind_ok in H1. destruct H1 as (u' & Hu & H1). apply addr_validate_ok in Hu. destruct Hu as [<- _].
  apply bind_ok in H1. destruct H1 as (w & _ & H1). apply bind_ok in H1. destruct H1 as (t2 & _ & H1). inversion H1; subst.
  unfold member_weight, set_member_weight. cbn [m_weights with_member_weights]. apply ogetN_oset_ne. intros ->. eapply restricted_not_ok; eassumption.
Qed.

Lemma restricted_cannot_stake o st e sender coins m st' out u signed en :
  en_components en <> None -> mo_restricted o u = query_is_restricted_user signed en u ->
  must_sign signed en u -> is_multisig st = false ->
  member_execute o st e sender coins m = Ok (st', out) ->
  weight_now st' u <= weight_now st u.
Proof.
  intros Hc Ho Hm Hk H. apply (proj1 (restricted_iff signed en u Hc)) in Hm. rewrite <- Ho in Hm.
  destruct st as [s|s|s|s]; cbn [is_multisig] in Hk; try discriminate; destruct m as [m|m|m|m]; cbn [member_execute] in H; try discriminate;
    apply bind_ok in H; destruct H as ([s' o'] & H & E); inversion E; subst; cbn [weight_now]; clear E.
  - destruct m as [n h|m]; cbn [token_execute] in H; [|eapply stake_execute_weight; eassumption].
    unfold token_receive in H. apply bind_ok in H. destruct H as (? & _ & H). destruct h.
    + unfold stake_token in H. apply bind_ok in H. destruct H as (? & Hn & H). apply bind_ok in H. destruct H as (u' & Hu & H).
      apply addr_validate_ok in Hu. destruct Hu as [<- _]. rewrite (add_stake_others _ _ _ _ _ _ u H); [lia|].
      intros ->. eapply restricted_not_ok; eassumption.
    + rewrite (add_stakes_others _ _ _ _ _ _ _ u Hm H). lia.
    + apply bind_ok in H. destruct H as (s2 & H & E). inversion E; subst. rewrite (add_claims_members _ _ _ _ H). lia.
    + discriminate.
  - destruct m as [usr|m]; cbn [denom_execute] in H; [|eapply stake_execute_weight; eassumption].
    unfold stake_denom in H. destruct coins as [|[d a] [|c cs]]; try discriminate. apply bind_ok in H. destruct H as (? & _ & H).
    apply bind_ok in H. destruct H as (u' & Hu & H). apply bind_ok in H. destruct H as (? & Hn & H).
    rewrite (add_stake_others _ _ _ _ _ _ u H); [lia|]. intros ->. eapply restricted_not_ok; eassumption.
  - destruct m; cbn [nft_execute] in H.
    + unfold receive_nft in H. apply bind_ok in H. destruct H as ([s1 c] & Hs1 & H). apply bind_ok in H. destruct H as (? & _ & H).
      assert (E1 : ns_members s1 = ns_members s).
      { destruct (ns_contract s); [inversion Hs1; reflexivity|]. apply bind_ok in Hs1. destruct Hs1 as (? & _ & Hs1). apply bind_ok in Hs1.
        destruct Hs1 as (? & _ & Hs1). inversion Hs1; reflexivity. }
      destruct h.
      * unfold stake_nft in H. apply bind_ok in H. destruct H as (? & Hn & H). apply bind_ok in H. destruct H as (? & _ & H).
        apply bind_ok in H. destruct H as (u' & Hu & H). apply addr_validate_ok in Hu. destruct Hu as [<- _].
        apply bind_ok in H. destruct H as ([m1 w] & Hi & H). apply bind_ok in H. destruct H as (m2 & Ht & H). inversion H; subst.
        cbn [ns_members ns_with_members]. rewrite (incr_total _ _ _ _ Ht). rewrite (incr_weight _ _ _ _ _ Hi u).
        -- cbn [ns_members ns_with_stakes]. rewrite E1. lia.
        -- intros ->. eapply restricted_not_ok; eassumption.
      * apply bind_ok in H. destruct H as (u' & _ & H). apply bind_ok in H. destruct H as (s2 & Hcl & H). inversion H; subst.
        rewrite (add_nft_claim_weight _ _ _ _ _ Hcl), E1. lia.
      * discriminate.
    + unfold unstake_nft in H. apply bind_ok in H. destruct H as (stakes & _ & H). apply bind_ok in H. destruct H as ([m1 w] & Hd & H).
      apply bind_ok in H. destruct H as (m2 & Ht & H). apply bind_ok in H. destruct H as (r & _ & H). apply bind_ok in H. destruct H as (s2 & Hcl & H).
      inversion H; subst. rewrite (add_nft_claim_weight _ _ _ _ _ Hcl). cbn [ns_members ns_with_members]. rewrite (decr_total _ _ _ _ Ht).
      eapply decr_weight; eassumption.
    + unfold claim_nft in H. repeat (match type of H with bind _ _ = Ok _ => apply bind_ok in H; destruct H as (? & _ & H) | (let '(_, _) := ?x in _) = Ok _ => destruct x end); inversion H; subst; cbn; lia.
    + apply bind_ok in H. destruct H as (x & Hx & H). inversion H; subst. unfold nft_update_period in Hx. apply bind_ok in Hx. destruct Hx as (? & _ & Hx).
      inversion Hx; subst. destruct p; cbn; lia.
    + apply bind_ok in H. destruct H as (x & Hx & H). inversion H; subst. unfold add_hook in Hx. binv Hx. clean. cbn [ns_members ns_with_members]. apply N.le_refl.
    + apply bind_ok in H. destruct H as (x & Hx & H). inversion H; subst. unfold remove_hook in Hx. binv Hx. clean. cbn [ns_members ns_with_members]. apply N.le_refl.
Qed.

(** Leaving does not depend on the attestation: unstaking and claiming stakes give the same result whatever the
    other contracts answer. *)
Lemma leaving_free o1 o2 st e sender coins m :
  match m with
  | TokenMsg (TCommon (SUnstake _)) | TokenMsg (TCommon (SClaim _)) | DenomMsg (DCommon (SUnstake _))
  | DenomMsg (DCommon (SClaim _)) | NftMsg (NUnstake _) | NftMsg (NClaim _) => True
  | _ => False
  end ->
  member_execute o1 st e sender coins m = member_execute o2 st e sender coins m.
Proof.
  intros H. destruct m as [[|[]]|[|[]]|[]|]; try contradiction; destruct st; reflexivity.
Qed.

(** What the root contract tells others. *)
Lemma components_reported e f v c :
  query_component_contracts e = Ok (f, v, c) <-> f = en_factory e /\ v = en_versioning e /\ en_components e = Some c.
Proof.
  unfold query_component_contracts. split.
  - intros H. destruct (en_components e) as [c0|] eqn:E; [|discriminate]. cbn in H. inversion H; subst. auto.
  - intros (-> & -> & ->). reflexivity.
Qed.
Lemma info_reported e : query_dao_info e = (en_creation e, en_metadata e, en_type e, en_version e).
Proof. reflexivity. Qed.
