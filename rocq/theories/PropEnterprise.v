(** Properties of the enterprise (root) contract, the version registry and the attestation: C41, C45-C47, C64. *)
From Coq Require Import Sorting.Sorted.
From Verif Require Import Base OMap Assets FundsModel FundsSpec MemberModel MemberExamples Msgs ControllerModel TreasurySpec
  EnterpriseModel EnterpriseSpec EnterpriseProofs EnterpriseExamples EnterpriseFacts EnterpriseCases.

(** C41: an address has signed exactly if it called the sign message itself; there is no way back. *)
Theorem C41_signed_by_own_call : forall a l u,
  u <> 0 ->
  has_user_signed (fold_left sign_attestation l a) u = Ok true <-> has_user_signed a u = Ok true \/ In u l.
Proof. exact signed_history. Qed.
Print Assumptions C41_signed_by_own_call.

(** ... the root contract reports as restricted exactly those who have not signed the current attestation; nobody if there is none. *)
Theorem C41_restricted_exactly : forall signed e u,
  en_components e <> None ->
  (query_is_restricted_user signed e u = Ok true <-> must_sign signed e u) /\
  (attestation_of e = None -> query_is_restricted_user signed e u = Ok false).
Proof. exact restricted_iff. Qed.
Print Assumptions C41_restricted_exactly.

Example C41_nonvacuous :
  has_user_signed att 20 = Ok true /\ has_user_signed att 22 = Ok false /\
  en_components attested <> None /\ must_sign asked attested 22 /\ query_is_restricted_user asked attested 20 = Ok false.
Proof. exact case_attestation. Qed.

(** ... a restricted address can neither propose (by any of the four ways), nor vote, nor execute a proposal. *)
Theorem C41_no_governance : forall o self s e sender coins m u signed en,
  en_components en <> None -> co_restricted o u = query_is_restricted_user signed en u ->
  must_sign signed en u -> acting sender m = Some u ->
  forall r, ctl_execute o self s e sender coins m <> Ok r.
Proof. exact restricted_cannot_govern. Qed.
Print Assumptions C41_no_governance.

(** ... nobody can claim rewards for it. *)
Theorem C41_no_rewards : forall o f sender coins u ns cs signed en,
  en_components en <> None -> (query_is_restricted_user signed en u = Ok true -> fo_restricted o u = true) ->
  must_sign signed en u ->
  forall r, funds_execute o f sender coins (FClaim u ns cs) <> Ok r.
Proof. exact restricted_cannot_claim. Qed.
Print Assumptions C41_no_rewards.

(** ... no call to a staking membership contract raises its weight. *)
Theorem C41_no_stake : forall o st e sender coins m st' out u signed en,
  en_components en <> None -> mo_restricted o u = query_is_restricted_user signed en u ->
  must_sign signed en u -> is_multisig st = false ->
  member_execute o st e sender coins m = Ok (st', out) ->
  weight_now st' u <= weight_now st u.
Proof. exact restricted_cannot_stake. Qed.
Print Assumptions C41_no_stake.

(** ... but it can leave: unstaking and claiming the stake back do not depend on it. *)
Theorem C41_leaving_free : forall o1 o2 st e sender coins m,
  match m with
  | TokenMsg (TCommon (SUnstake _)) | TokenMsg (TCommon (SClaim _)) | DenomMsg (DCommon (SUnstake _))
  | DenomMsg (DCommon (SClaim _)) | NftMsg (NUnstake _) | NftMsg (NClaim _) => True
  | _ => False
  end ->
  member_execute o1 st e sender coins m = member_execute o2 st e sender coins m.
Proof. exact leaving_free. Qed.
Print Assumptions C41_leaving_free.

Example C41_restricted_nonvacuous :
  must_sign asked attested 102 /\ acting 102 (CCastVote 1 PollModel.Yes) = Some 102 /\
  is_multisig tok_st = false /\ weight_now tok_st 102 = 50 /\
  is_ok (member_execute member_asks tok_st (at_block 20) 102 [] (TokenMsg (TCommon (SUnstake 50)))) = true /\
  is_ok (member_execute member_asks tok_st (at_block 20) 50 [] (TokenMsg (TReceive 100 (HStake 20)))) = true.
Proof. exact case_restricted. Qed.

(** C46: of the calls to the registry, only the admin's count. *)
Theorem C46_admin_only : forall r s m,
  s <> rg_admin r -> registry_execute r s m = Err EUnauthorized.
Proof. exact registry_admin_only. Qed.
Print Assumptions C46_admin_only.

Theorem C46_strangers : forall r l,
  Forall (fun c => fst c <> rg_admin r) l -> registry_run r l = r.
Proof. exact registry_strangers. Qed.
Print Assumptions C46_strangers.

(** ... adding never overwrites and changes nothing else. *)
Theorem C46_add : forall r s v r',
  registry_execute r s (RgAddVersion v) = Ok r' <->
  s = rg_admin r /\ oget (rg_versions r) (vi_version v) = None /\
  rg_admin r' = rg_admin r /\ oget (rg_versions r') (vi_version v) = Some v /\
  forall k, k <> vi_version v -> oget (rg_versions r') k = oget (rg_versions r) k.
Proof. exact registry_add_effect. Qed.
Print Assumptions C46_add.

(** ... an edit changes exactly the given fields of one existing version. *)
Theorem C46_edit : forall r s e r',
  registry_execute r s (RgEditVersion e) = Ok r' <->
  s = rg_admin r /\ rg_admin r' = rg_admin r /\
  (forall k, k <> ve_version e -> oget (rg_versions r') k = oget (rg_versions r) k) /\
  exists v w, oget (rg_versions r) (ve_version e) = Some v /\ oget (rg_versions r') (ve_version e) = Some w /\
    vi_version w = vi_version v /\
    edited (vi_changelog v) (ve_changelog e) (vi_changelog w) /\
    edited (vi_attestation v) (ve_attestation e) (vi_attestation w) /\
    edited (vi_enterprise v) (ve_enterprise e) (vi_enterprise w) /\
    edited (vi_governance v) (ve_governance e) (vi_governance w) /\
    edited (vi_controller v) (ve_controller e) (vi_controller w) /\
    edited (vi_outposts v) (ve_outposts e) (vi_outposts w) /\
    edited (vi_treasury v) (ve_treasury e) (vi_treasury w) /\
    edited (vi_funds v) (ve_funds e) (vi_funds w) /\
    edited (vi_token v) (ve_token e) (vi_token w) /\
    edited (vi_denom v) (ve_denom e) (vi_denom w) /\
    edited (vi_nft v) (ve_nft e) (vi_nft w) /\
    edited (vi_multisig v) (ve_multisig e) (vi_multisig w).
Proof. exact registry_edit_effect. Qed.
Print Assumptions C46_edit.

Theorem C46_update_admin : forall r s a r',
  registry_execute r s (RgUpdateAdmin a) = Ok r' <->
  s = rg_admin r /\ a <> 0 /\ rg_admin r' = a /\ forall k, oget (rg_versions r') k = oget (rg_versions r) k.
Proof. exact registry_admin_effect. Qed.
Print Assumptions C46_update_admin.

(** ... no version ever disappears; each came from an addition by the admin of the time; each is stored under its number. *)
Theorem C46_append_only : forall r l k v,
  oget (rg_versions r) k = Some v ->
  exists w, oget (rg_versions (registry_run r l)) k = Some w /\ vi_version w = vi_version v.
Proof. exact registry_grows. Qed.
Print Assumptions C46_append_only.

Theorem C46_origin : forall a r l k,
  registry_instantiate a = Ok r ->
  is_some (oget (rg_versions (registry_run r l)) k) = true ->
  exists l1 v l2, l = l1 ++ (rg_admin (registry_run r l1), RgAddVersion v) :: l2 /\ vi_version v = k.
Proof. exact registry_origin. Qed.
Print Assumptions C46_origin.

Theorem C46_keys : forall a r l,
  registry_instantiate a = Ok r -> registry_ok (registry_run r l).
Proof. exact registry_from_start. Qed.
Print Assumptions C46_keys.

Example C46_nonvacuous :
  registry_instantiate ADM = Ok start_registry /\
  (exists r, registry_execute reg ADM (RgEditVersion (edit_gov (version 1 0 7) 4242)) = Ok r) /\
  (exists r, registry_execute reg ADM (RgAddVersion (info 1 1 0)) = Ok r) /\
  registry_execute reg ADM (RgAddVersion (info 1 0 7)) = Err EVersionExists /\
  registry_execute reg ADM (RgEditVersion (no_edit (version 1 1 0))) = Err EVersionNotFound /\
  (exists r, registry_execute reg ADM (RgUpdateAdmin 10) = Ok r) /\
  Forall (fun c : addr * registry_msg => fst c <> rg_admin reg) [(8, RgUpdateAdmin 8); (10, RgAddVersion (info 3 0 0))] /\
  is_some (oget (rg_versions reg) (version 1 0 7)) = true.
Proof. exact case_registry. Qed.

(** The numbers by which versions are ordered in the model order them as (major, minor, patch). *)
Theorem C46_order : forall a b,
  u64_triple a -> u64_triple b -> (code_of a < code_of b <-> triple_lt a b).
Proof. exact version_lt. Qed.
Print Assumptions C46_order.

Theorem C46_order_injective : forall a b,
  u64_triple a -> u64_triple b -> code_of a = code_of b -> a = b.
Proof. exact version_inj. Qed.
Print Assumptions C46_order_injective.

(** ... the latest version is the greatest one; there is an answer unless the registry is empty. *)
Theorem C46_latest : forall r v,
  registry_ok r -> query_latest_version r = Ok v ->
  released r v /\ (forall w, released r w -> w = v \/ vi_version w < vi_version v) /\
  forall w a b, released r w -> u64_triple a -> u64_triple b -> vi_version v = code_of a -> vi_version w = code_of b ->
    triple_le b a.
Proof. exact registry_latest. Qed.
Print Assumptions C46_latest.

Theorem C46_latest_none : forall r er,
  query_latest_version r = Err er <-> er = ENoVersions /\ forall k, oget (rg_versions r) k = None.
Proof. exact registry_latest_none. Qed.
Print Assumptions C46_latest_none.

(** ... the listing, read page by page with any page size, is the list of all versions in ascending order. *)
Theorem C46_pages : forall r,
  registry_ok r ->
  exists W, ascending W /\ (forall v, In v W <-> released r v) /\
    forall limit, limit <> Some 0 ->
      let page := fun start => Ok (query_versions r (option_map vi_version start) limit) in
      pages_of W (N.to_nat (N.min (dflt 10 limit) 50)) page /\
      forall fuel, (length W < fuel)%nat -> read_pages fuel page None = Ok W.
Proof. exact registry_pages. Qed.
Print Assumptions C46_pages.

Example C46_latest_nonvacuous :
  registry_ok reg /\ query_latest_version reg = Ok (info 2 0 0) /\
  released reg (info 1 0 119) /\ u64_triple (2, 0, 0) /\ u64_triple (1, 0, 119) /\
  vi_version (info 2 0 0) = code_of (2, 0, 0) /\ vi_version (info 1 0 119) = code_of (1, 0, 119) /\
  length (elems (rg_versions reg)) = 121%nat /\
  length (query_versions reg None (Some 100)) = 50%nat /\
  map vi_version (query_versions reg (Some (version 1 0 118)) None) = [version 1 0 119; version 2 0 0].
Proof. exact case_latest. Qed.

Example C46_latest_none_nonvacuous : query_latest_version start_registry = Err ENoVersions.
Proof. exact case_latest_none. Qed.

(** C45: an upgrade is accepted exactly from the controller, to a greater version, with at most one message per version; it schedules the migrations of exactly the released versions in between, ascending, each with its message, whatever the number of pages. ([fuel] bounds the reading loop; any number above that of the versions gives this result.) *)
Theorem C45_upgrade_exact : forall self creator fuel r e sender target msgs e' out,
  registry_ok r ->
  (length (elems (rg_versions r)) < fuel)%nat ->
  enterprise_execute (registry_oracle self creator fuel r) e sender (EnUpgradeDao target msgs) = Ok (e', out) <->
  controller_of e = Some sender /\ en_version e < target /\ NoDup (map fst msgs) /\
  e' = mk_enterprise (en_creation e) (en_factory e) (en_versioning e) (en_metadata e) target (en_type e)
         (en_finalized e) (en_components e) /\
  exists vs, released_between r (en_version e) target vs /\
    out = map (fun v => plain (WasmMigrate self (vi_enterprise v) (dflt EMPTY_MSG (lget msgs (vi_version v))))) vs.
Proof. exact upgrade_iff. Qed.
Print Assumptions C45_upgrade_exact.

(** ... even with a registry that answers anything, the version only goes up and only the root contract itself is migrated. *)
Theorem C45_any_registry : forall o e sender target msgs e' out,
  enterprise_execute o e sender (EnUpgradeDao target msgs) = Ok (e', out) ->
  controller_of e = Some sender /\ en_version e < en_version e' /\ en_version e' = target /\
  NoDup (map fst msgs) /\
  (forall m, In m out -> exists code b, m = plain (WasmMigrate (eo_self o) code b)).
Proof. exact upgrade_any_registry. Qed.
Print Assumptions C45_any_registry.

Theorem C45_version_step : forall e v e' out,
  en_handle e v = Ok (e', out) ->
  en_version e' = en_version e \/
  exists o sender target msgs, v = EvCall o sender (EnUpgradeDao target msgs) /\ controller_of e = Some sender /\
    en_version e < en_version e'.
Proof. exact en_version_step. Qed.
Print Assumptions C45_version_step.

Theorem C45_version_never_falls : forall e l,
  en_version e <= en_version (en_run e l).
Proof. exact en_version_history. Qed.
Print Assumptions C45_version_never_falls.

Example C45_nonvacuous :
  registry_ok reg /\ (length (elems (rg_versions reg)) < 200)%nat /\
  exists e' out, enterprise_execute (registry_oracle SELF CREATOR 200 reg) dao CONTROLLER
                   (EnUpgradeDao (version 1 0 110) [(version 1 0 5, 55)]) = Ok (e', out) /\
    en_version e' = version 1 0 110 /\ length out = 110%nat /\
    nth_error out 3 = Some (plain (WasmMigrate SELF (vi_enterprise (info 1 0 4)) EMPTY_MSG)) /\
    nth_error out 4 = Some (plain (WasmMigrate SELF (vi_enterprise (info 1 0 5)) 55)).
Proof. exact case_upgrade. Qed.

(** The target need not exist. *)
Theorem C45_target_exists_refuted : exists r e sender target e' fuel,
  registry_ok r /\ (length (elems (rg_versions r)) < fuel)%nat /\ oget (rg_versions r) target = None /\
  enterprise_execute (registry_oracle SELF CREATOR fuel r) e sender (EnUpgradeDao target []) = Ok (e', []) /\
  en_version e' = target /\
  forall s text, exists er, enterprise_execute (registry_oracle SELF CREATOR fuel r) e' s (EnSetAttestation text) = Err er.
Proof. exact missing_target. Qed.
Print Assumptions C45_target_exists_refuted.

(** ... and then no attestation can be set until that version is released. *)
Theorem C45_missing_target_blocks_attestation : forall self creator fuel r e sender text,
  oget (rg_versions r) (en_version e) = None ->
  exists er, enterprise_execute (registry_oracle self creator fuel r) e sender (EnSetAttestation text) = Err er.
Proof. exact unreleased_no_attestation. Qed.
Print Assumptions C45_missing_target_blocks_attestation.

(** C47: the wiring can be set only once, only by the contract's creator. *)
Theorem C47_finalize_exact : forall o e sender c e' out,
  enterprise_execute o e sender (EnFinalize c) = Ok (e', out) <->
  en_finalized e = false /\ sender = eo_creator o /\ sender <> 0 /\ valid_components c /\ out = [] /\
  e' = mk_enterprise (en_creation e) (en_factory e) (en_versioning e) (en_metadata e) (en_version e) (en_type e)
         true (Some c).
Proof. exact finalize_iff. Qed.
Print Assumptions C47_finalize_exact.

Theorem C47_new_dao : forall e f r cd t v md x,
  enterprise_instantiate e f r cd t v md = Ok x <->
  f <> 0 /\ r <> 0 /\ x = mk_enterprise (dflt (e_time e) cd) f r md v t false None.
Proof. exact en_instantiate_ok. Qed.
Print Assumptions C47_new_dao.

Theorem C47_before_wiring : forall e v e' out,
  en_ok e -> en_components e = None -> en_handle e v = Ok (e', out) ->
  exists o c, v = EvCall o (eo_creator o) (EnFinalize c) /\ valid_components c /\ en_components e' = Some c /\ en_ok e' /\ out = [].
Proof. exact en_unwired_step. Qed.
Print Assumptions C47_before_wiring.

Theorem C47_wired_once : forall f r cd t v md en x l,
  enterprise_instantiate en f r cd t v md = Ok x ->
  en_ok (en_run x l) /\ en_type (en_run x l) = t /\
  forall l1 o s c l2 e', l = l1 ++ EvCall o s (EnFinalize c) :: l2 ->
    en_handle (en_run x l1) (EvCall o s (EnFinalize c)) = Ok e' ->
    s = eo_creator o /\ en_components (en_run x l1) = None /\
    exists c', en_components (en_run x l) = Some c' /\ same_wiring c' c.
Proof. exact en_wired_once. Qed.
Print Assumptions C47_wired_once.

(** ... afterwards only the attestation address changes: by the controller's removal or by the reply to its order. *)
Theorem C47_after_wiring : forall e v e' out c,
  en_ok e -> en_components e = Some c -> en_handle e v = Ok (e', out) ->
  en_ok e' /\ en_creation e' = en_creation e /\ en_type e' = en_type e /\ en_finalized e' = true /\
  exists c', en_components e' = Some c' /\ same_wiring c' c /\
    (c_attestation c' = c_attestation c \/
     (exists o, v = EvCall o (c_controller c) EnRemoveAttestation /\ c_attestation c' = None) \/
     (exists a, v = EvReply 1 (ROk (Some a)) /\ c_attestation c' = Some a)).
Proof. exact en_wired_step. Qed.
Print Assumptions C47_after_wiring.

Theorem C47_wiring_kept : forall e l c,
  en_ok e -> en_components e = Some c ->
  en_ok (en_run e l) /\ en_creation (en_run e l) = en_creation e /\ en_type (en_run e l) = en_type e /\
  en_finalized (en_run e l) = true /\ exists c', en_components (en_run e l) = Some c' /\ same_wiring c' c.
Proof. exact en_wired_history. Qed.
Print Assumptions C47_wiring_kept.

Example C47_nonvacuous :
  enterprise_instantiate (mk_env 77 1) FACTORY REG None DaoToken (version 1 0 0) md0 = Ok new_dao /\
  (exists r, en_handle (en_run new_dao (firstn 1 life)) (EvCall orc CREATOR (EnFinalize wiring)) = Ok r) /\
  life = firstn 1 life ++ EvCall orc CREATOR (EnFinalize wiring) :: skipn 2 life /\
  en_components (en_run new_dao life) = Some (mk_components 2 3 4 5 6 7 8 (Some 40)) /\
  en_versioning (en_run new_dao life) = 50 /\
  en_ok dao /\ en_components dao = Some wiring /\ en_ok new_dao /\ en_components new_dao = None /\
  (exists r, en_handle new_dao (EvCall orc CREATOR (EnFinalize wiring)) = Ok r).
Proof. exact case_wiring. Qed.

(** The queries report the stored wiring and data. *)
Theorem C47_wiring_reported : forall e f v c,
  query_component_contracts e = Ok (f, v, c) <-> f = en_factory e /\ v = en_versioning e /\ en_components e = Some c.
Proof. exact components_reported. Qed.
Print Assumptions C47_wiring_reported.

Theorem C47_info_reported : forall e,
  query_dao_info e = (en_creation e, en_metadata e, en_type e, en_version e).
Proof. exact info_reported. Qed.
Print Assumptions C47_info_reported.

(** ... all management messages are the controller's, and do exactly this. *)
Theorem C47_management_controller_only : forall o e sender m e' out,
  enterprise_execute o e sender m = Ok (e', out) -> is_finalize m = false -> controller_of e = Some sender.
Proof. exact management_controller_only. Qed.
Print Assumptions C47_management_controller_only.

Theorem C47_update_metadata : forall o e sender u e' out,
  enterprise_execute o e sender (EnUpdateMetadata u) = Ok (e', out) <->
  controller_of e = Some sender /\ out = [] /\
  en_creation e' = en_creation e /\ en_factory e' = en_factory e /\ en_versioning e' = en_versioning e /\
  en_version e' = en_version e /\ en_type e' = en_type e /\ en_finalized e' = en_finalized e /\
  en_components e' = en_components e /\
  changed (md_name (en_metadata e)) (mu_name u) (md_name (en_metadata e')) /\
  changed (md_description (en_metadata e)) (mu_description u) (md_description (en_metadata e')) /\
  changed (md_logo (en_metadata e)) (mu_logo u) (md_logo (en_metadata e')) /\
  changed (md_github (en_metadata e)) (mu_github u) (md_github (en_metadata e')) /\
  changed (md_discord (en_metadata e)) (mu_discord u) (md_discord (en_metadata e')) /\
  changed (md_twitter (en_metadata e)) (mu_twitter u) (md_twitter (en_metadata e')) /\
  changed (md_telegram (en_metadata e)) (mu_telegram u) (md_telegram (en_metadata e')).
Proof. exact metadata_iff. Qed.
Print Assumptions C47_update_metadata.

Theorem C47_update_config : forall o e sender vm fm e' out,
  enterprise_execute o e sender (EnUpdateConfig vm fm) = Ok (e', out) <->
  controller_of e = Some sender /\ out = [] /\ vm <> Change 0 /\ fm <> Change 0 /\
  changed (en_versioning e) vm (en_versioning e') /\ changed (en_factory e) fm (en_factory e') /\
  en_creation e' = en_creation e /\ en_metadata e' = en_metadata e /\
  en_version e' = en_version e /\ en_type e' = en_type e /\ en_finalized e' = en_finalized e /\
  en_components e' = en_components e.
Proof. exact config_iff. Qed.
Print Assumptions C47_update_config.

Theorem C47_execute_msgs : forall o e sender msgs e' out,
  enterprise_execute o e sender (EnExecuteMsgs msgs) = Ok (e', out) <->
  controller_of e = Some sender /\ e' = e /\ exists l, msgs = map Some l /\ out = map plain l.
Proof. exact custom_iff. Qed.
Print Assumptions C47_execute_msgs.

Theorem C47_set_attestation : forall o e sender text e' out,
  enterprise_execute o e sender (EnSetAttestation text) = Ok (e', out) <->
  controller_of e = Some sender /\ e' = e /\ exists v, eo_version o (en_versioning e) (en_version e) = Ok v /\
    out = [mk_sub (WasmInstantiate None (vi_attestation v) (InitAttestation text)) (ReplySuccess 1)].
Proof. exact set_attestation_iff. Qed.
Print Assumptions C47_set_attestation.

Theorem C47_attestation_reply : forall e id r e' out,
  enterprise_reply e id r = Ok (e', out) <->
  id = 1 /\ out = [] /\ exists a c, r = ROk (Some a) /\ a <> 0 /\ en_components e = Some c /\
  e' = mk_enterprise (en_creation e) (en_factory e) (en_versioning e) (en_metadata e) (en_version e) (en_type e)
         (en_finalized e) (Some (mk_components (c_governance c) (c_controller c) (c_treasury c) (c_outposts c)
                                   (c_funds c) (c_membership c) (c_council c) (Some a))).
Proof. exact reply_iff. Qed.
Print Assumptions C47_attestation_reply.

Theorem C47_remove_attestation : forall o e sender e' out,
  enterprise_execute o e sender EnRemoveAttestation = Ok (e', out) <->
  out = [] /\ exists c, en_components e = Some c /\ sender = c_controller c /\
  e' = mk_enterprise (en_creation e) (en_factory e) (en_versioning e) (en_metadata e) (en_version e) (en_type e)
         (en_finalized e) (Some (mk_components (c_governance c) (c_controller c) (c_treasury c) (c_outposts c)
                                   (c_funds c) (c_membership c) (c_council c) None)).
Proof. exact remove_attestation_iff. Qed.
Print Assumptions C47_remove_attestation.

Example C47_management_nonvacuous :
  (exists r, enterprise_execute orc dao CONTROLLER (EnUpdateMetadata (mk_metadata_update (Change 8) NoChange NoChange (Change (Some 3)) NoChange NoChange NoChange)) = Ok r) /\
  (exists r, enterprise_execute orc dao CONTROLLER (EnUpdateConfig (Change 50) NoChange) = Ok r) /\
  (exists r, enterprise_execute orc dao CONTROLLER (EnExecuteMsgs [Some (BankSend 5 [(1, 2)])]) = Ok r) /\
  (exists r, enterprise_execute orc dao CONTROLLER (EnSetAttestation 5) = Ok r) /\
  (exists r, enterprise_reply dao 1 (ROk (Some 40)) = Ok r) /\
  (exists r, enterprise_execute orc dao CONTROLLER EnRemoveAttestation = Ok r).
Proof. exact case_management. Qed.

(** C64: the migration moves exactly the outposts, distributor, membership (by type) and council contracts to the codes of version 1.2.1, whatever the version upgraded to. *)
Theorem C64_migrate_exact : forall o e out,
  enterprise_migrate o e = Ok out <->
  exists v c, eo_version o (en_versioning e) (version 1 2 1) = Ok v /\ en_components e = Some c /\
    out = [plain (WasmMigrate (c_outposts c) (vi_outposts v) EMPTY_MSG);
           plain (WasmMigrate (c_funds c) (vi_funds v) EMPTY_MSG);
           plain (WasmMigrate (c_membership c)
                    (match en_type e with DaoDenom => vi_denom v | DaoToken => vi_token v | DaoNft => vi_nft v
                                        | DaoMultisig => vi_multisig v end) EMPTY_MSG);
           plain (WasmMigrate (c_council c) (vi_multisig v) EMPTY_MSG)].
Proof. exact migrate_spec. Qed.
Print Assumptions C64_migrate_exact.

Example C64_nonvacuous : exists out, enterprise_migrate (registry_oracle SELF CREATOR 200 reg121) dao = Ok out.
Proof. exact case_migrate. Qed.
