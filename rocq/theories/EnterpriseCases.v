(** Witnesses for the enterprise properties. *)
From Verif Require Import Base OMap OMapLemmas Assets FundsModel MemberModel MemberExamples Msgs ControllerModel ControllerExamples
  EnterpriseModel EnterpriseSpec EnterpriseProofs EnterpriseFacts EnterpriseExamples TreasurySpec.

Lemma start_ok : registry_ok start_registry.
Proof. intros k v H. discriminate H. Qed.
Lemma reg_ok : registry_ok reg.
Proof.
  exact (registry_ok_run start_registry releases start_ok).
Qed.

Definition no_edit (v : N) : version_edit :=
  mk_version_edit v None None None None None None None None None None None None.
Definition edit_gov (v g : N) : version_edit :=
  mk_version_edit v None None None (Some g) None None None None None None None None.

Lemma ok_ex {A} (r : res A) : is_ok r = true -> exists x, r = Ok x.
Proof. destruct r; [eauto|discriminate]. Qed.

(** An edit of one field, an addition, a repeated addition (refused), a change of the admin. *)
Lemma case_registry :
  registry_instantiate ADM = Ok start_registry /\
  (exists r, registry_execute reg ADM (RgEditVersion (edit_gov (version 1 0 7) 4242)) = Ok r) /\
  (exists r, registry_execute reg ADM (RgAddVersion (info 1 1 0)) = Ok r) /\
  registry_execute reg ADM (RgAddVersion (info 1 0 7)) = Err EVersionExists /\
  registry_execute reg ADM (RgEditVersion (no_edit (version 1 1 0))) = Err EVersionNotFound /\
  (exists r, registry_execute reg ADM (RgUpdateAdmin 10) = Ok r) /\
  Forall (fun c : addr * registry_msg => fst c <> rg_admin reg) [(8, RgUpdateAdmin 8); (10, RgAddVersion (info 3 0 0))] /\
  is_some (oget (rg_versions reg) (version 1 0 7)) = true.
Proof.
  split; [vm_compute; reflexivity|]. split; [apply ok_ex; vm_compute; reflexivity|]. split; [apply ok_ex; vm_compute; reflexivity|].
  split; [vm_compute; reflexivity|]. split; [vm_compute; reflexivity|]. split; [apply ok_ex; vm_compute; reflexivity|].
  split; [repeat constructor; vm_compute; discriminate|]. vm_compute; reflexivity.
Qed.

(** 2.0.0 was added before 1.0.119 and is the latest; the listing of 121 versions needs several pages. *)
Lemma case_latest :
  registry_ok reg /\ query_latest_version reg = Ok (info 2 0 0) /\
  released reg (info 1 0 119) /\ u64_triple (2, 0, 0) /\ u64_triple (1, 0, 119) /\
  vi_version (info 2 0 0) = code_of (2, 0, 0) /\ vi_version (info 1 0 119) = code_of (1, 0, 119) /\
  length (elems (rg_versions reg)) = 121%nat /\
  length (query_versions reg None (Some 100)) = 50%nat /\
  map vi_version (query_versions reg (Some (version 1 0 118)) None) = [version 1 0 119; version 2 0 0].
Proof.
  split; [apply reg_ok|]. split; [vm_compute; reflexivity|]. split; [vm_compute; reflexivity|].
  do 2 (split; [vm_compute; repeat split; reflexivity|]). do 4 (split; [vm_compute; reflexivity|]). vm_compute; reflexivity.
Qed.
Lemma case_latest_none : query_latest_version start_registry = Err ENoVersions.
Proof. reflexivity. Qed.

(** From 1.0.0 to 1.0.110: 110 migrations, read in three pages, one of them with a message. *)
Lemma case_upgrade :
  registry_ok reg /\ (length (elems (rg_versions reg)) < 200)%nat /\
  exists e' out, enterprise_execute (registry_oracle SELF CREATOR 200 reg) dao CONTROLLER
                   (EnUpgradeDao (version 1 0 110) [(version 1 0 5, 55)]) = Ok (e', out) /\
    en_version e' = version 1 0 110 /\ length out = 110%nat /\
    nth_error out 3 = Some (plain (WasmMigrate SELF (vi_enterprise (info 1 0 4)) EMPTY_MSG)) /\
    nth_error out 4 = Some (plain (WasmMigrate SELF (vi_enterprise (info 1 0 5)) 55)).
Proof.
  split; [apply reg_ok|]. split; [apply PeanoNat.Nat.ltb_lt; vm_compute; reflexivity|]. eexists. eexists.
  split; [vm_compute; reflexivity|]. split; [vm_compute; reflexivity|]. split; [vm_compute; reflexivity|].
  split; vm_compute; reflexivity.
Qed.

(** An upgrade to a version that was never released is accepted, without any migration; from then on no
    attestation can be set. *)
Lemma missing_target : exists r e sender target e' fuel,
  registry_ok r /\ (length (elems (rg_versions r)) < fuel)%nat /\ oget (rg_versions r) target = None /\
  enterprise_execute (registry_oracle SELF CREATOR fuel r) e sender (EnUpgradeDao target []) = Ok (e', []) /\
  en_version e' = target /\
  forall s text, exists er, enterprise_execute (registry_oracle SELF CREATOR fuel r) e' s (EnSetAttestation text) = Err er.
Proof.
  exists reg, (mk_enterprise 77 FACTORY REG md0 (version 2 0 0) DaoToken true (Some wiring)), CONTROLLER, (version 7 7 7).
  eexists. exists 200%nat.
  split; [apply reg_ok|]. split; [apply PeanoNat.Nat.ltb_lt; vm_compute; reflexivity|]. split; [vm_compute; reflexivity|].
  split; [vm_compute; reflexivity|]. split; [reflexivity|]. intros s text. apply unreleased_no_attestation. vm_compute. reflexivity.
Qed.

(** A new DAO is wired by its creator; later the controller sets and removes an attestation. *)
Definition life : list en_event :=
  [EvCall orc 99 (EnFinalize wiring); EvCall orc CREATOR (EnFinalize wiring);
   EvCall orc CREATOR (EnFinalize (mk_components 90 91 92 93 94 95 96 None));
   EvCall orc CONTROLLER (EnSetAttestation 5); EvReply 1 (ROk (Some 40));
   EvCall orc 99 EnRemoveAttestation; EvCall orc CONTROLLER (EnUpdateConfig (Change 50) NoChange)].
Lemma case_wiring :
  enterprise_instantiate (mk_env 77 1) FACTORY REG None DaoToken (version 1 0 0) md0 = Ok new_dao /\
  (exists r, en_handle (en_run new_dao (firstn 1 life)) (EvCall orc CREATOR (EnFinalize wiring)) = Ok r) /\
  life = firstn 1 life ++ EvCall orc CREATOR (EnFinalize wiring) :: skipn 2 life /\
  en_components (en_run new_dao life) = Some (mk_components 2 3 4 5 6 7 8 (Some 40)) /\
  en_versioning (en_run new_dao life) = 50 /\
  en_ok dao /\ en_components dao = Some wiring /\ en_ok new_dao /\ en_components new_dao = None /\
  (exists r, en_handle new_dao (EvCall orc CREATOR (EnFinalize wiring)) = Ok r).
Proof.
  split; [vm_compute; reflexivity|]. split; [eexists; vm_compute; reflexivity|]. split; [reflexivity|].
  do 6 (split; [vm_compute; reflexivity|]). eexists. vm_compute. reflexivity.
Qed.

Lemma case_management :
  (exists r, enterprise_execute orc dao CONTROLLER (EnUpdateMetadata (mk_metadata_update (Change 8) NoChange NoChange (Change (Some 3)) NoChange NoChange NoChange)) = Ok r) /\
  (exists r, enterprise_execute orc dao CONTROLLER (EnUpdateConfig (Change 50) NoChange) = Ok r) /\
  (exists r, enterprise_execute orc dao CONTROLLER (EnExecuteMsgs [Some (BankSend 5 [(1, 2)])]) = Ok r) /\
  (exists r, enterprise_execute orc dao CONTROLLER (EnSetAttestation 5) = Ok r) /\
  (exists r, enterprise_reply dao 1 (ROk (Some 40)) = Ok r) /\
  (exists r, enterprise_execute orc dao CONTROLLER EnRemoveAttestation = Ok r).
Proof. repeat split; eexists; vm_compute; reflexivity. Qed.

Definition reg121 : registry := registry_run reg [(ADM, RgAddVersion (info 1 2 1))].
Lemma case_migrate : exists out, enterprise_migrate (registry_oracle SELF CREATOR 200 reg121) dao = Ok out.
Proof. eexists. vm_compute. reflexivity. Qed.

(** An attestation at address 40, signed by 20 and 21. *)
Definition att : attestation := fold_left sign_attestation [20; 21; 20] (attestation_instantiate 5).
Definition asked : addr -> N -> res bool := fun a u => if a =? 40 then has_user_signed att u else Err ENoSuchContract.
Definition attested : enterprise := en_set_components dao (Some (with_attestation wiring (Some 40))).
Lemma case_attestation :
  has_user_signed att 20 = Ok true /\ has_user_signed att 22 = Ok false /\
  en_components attested <> None /\ must_sign asked attested 22 /\ query_is_restricted_user asked attested 20 = Ok false.
Proof.
  split; [reflexivity|]. split; [reflexivity|]. split; [discriminate|]. split; [|vm_compute; reflexivity].
  exists 40. split; reflexivity.
Qed.

(** 22 has not signed: no vote of theirs is taken, but 102, who has not signed either, can unstake. *)
Definition member_asks : member_oracle := mk_moracle (query_is_restricted_user asked attested) (Ok 3) (Ok None).
Lemma case_restricted :
  must_sign asked attested 102 /\ acting 102 (CCastVote 1 PollModel.Yes) = Some 102 /\
  is_multisig tok_st = false /\ weight_now tok_st 102 = 50 /\
  is_ok (member_execute member_asks tok_st (at_block 20) 102 [] (TokenMsg (TCommon (SUnstake 50)))) = true /\
  is_ok (member_execute member_asks tok_st (at_block 20) 50 [] (TokenMsg (TReceive 100 (HStake 20)))) = true.
Proof. split; [exists 40; split; reflexivity|]. repeat split; vm_compute; reflexivity. Qed.
