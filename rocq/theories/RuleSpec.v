(** Which settings a DAO has, and which proposals are about which of them. *)
From Verif Require Import Base OMap Assets FundsModel MemberModel MemberSpec Msgs ControllerModel TreasuryModel EnterpriseModel OutpostsModel
  WorldModel WorldSpec PurseSpec.

Inductive setting := OfMetadata | OfRegistry | OfVersion | OfAttestation | OfRules | OfCouncil | OfMinimum | OfAssets | OfNfts | OfPeriod | OfHooks | OfMembers.

(** The setting is the same in both worlds. *)
Definition unchanged {X} (k : setting) (w w' : world X) : Prop :=
  match k with
  | OfMetadata => en_metadata (w_enterprise w') = en_metadata (w_enterprise w)
  | OfRegistry => en_factory (w_enterprise w') = en_factory (w_enterprise w) /\ en_versioning (w_enterprise w') = en_versioning (w_enterprise w)
  | OfVersion => en_version (w_enterprise w') = en_version (w_enterprise w)
  | OfAttestation => option_map c_attestation (en_components (w_enterprise w')) = option_map c_attestation (en_components (w_enterprise w))
  | OfRules => ct_config (w_ctl w') = ct_config (w_ctl w)
  | OfCouncil => ct_council (w_ctl w') = ct_council (w_ctl w) /\ w_council w' = w_council w
  | OfMinimum => f_min (w_funds w') = f_min (w_funds w)
  | OfAssets => tr_natives (w_treasury w') = tr_natives (w_treasury w) /\ tr_cw20s (w_treasury w') = tr_cw20s (w_treasury w) /\
      tr_cw1155s (w_treasury w') = tr_cw1155s (w_treasury w)
  | OfNfts => tr_nfts (w_treasury w') = tr_nfts (w_treasury w)
  | OfPeriod => period_of (w_member w') = period_of (w_member w)
  | OfHooks => m_hooks (members_of (w_member w')) = m_hooks (members_of (w_member w))
  | OfMembers =>
      match w_member w with
      | MMultisig m => exists m', w_member w' = MMultisig m' /\ m_weights m' = m_weights m
      | _ => True
      end
  end.

(** A message of choice that is about the setting [k]. Handing the treasury over is about all that is set there. *)
Definition asks (A : addrs) (k : setting) (m : cosmos_msg) : bool :=
  match m with
  | WasmExecute to wm _ =>
      match k, wm with
      | OfMetadata, ToEnterprise (EnUpdateMetadata _) => to =? a_enterprise A
      | OfRegistry, ToEnterprise (EnUpdateConfig _ _) => to =? a_enterprise A
      | OfVersion, ToEnterprise (EnUpgradeDao _ _) => to =? a_enterprise A
      | OfAttestation, ToEnterprise (EnSetAttestation _) => to =? a_enterprise A
      | OfAttestation, ToEnterprise EnRemoveAttestation => to =? a_enterprise A
      | OfCouncil, ToMembership _ => to =? a_council A
      | OfMinimum, ToFunds (FUpdateMinimum _) => to =? a_funds A
      | OfAssets, ToTreasury (TrUpdateAssets _ _) => to =? a_treasury A
      | OfNfts, ToTreasury (TrUpdateNfts _ _) => to =? a_treasury A
      | OfAssets, ToTreasury (TrSetAdmin _) => to =? a_treasury A
      | OfNfts, ToTreasury (TrSetAdmin _) => to =? a_treasury A
      | OfPeriod, ToMembership (TokenMsg (TCommon (SUpdatePeriod _))) => to =? a_membership A
      | OfPeriod, ToMembership (DenomMsg (DCommon (SUpdatePeriod _))) => to =? a_membership A
      | OfPeriod, ToMembership (NftMsg (NUpdatePeriod _)) => to =? a_membership A
      | OfHooks, ToMembership (TokenMsg (TCommon (SAddHook _))) => to =? a_membership A
      | OfHooks, ToMembership (TokenMsg (TCommon (SRemoveHook _))) => to =? a_membership A
      | OfHooks, ToMembership (DenomMsg (DCommon (SAddHook _))) => to =? a_membership A
      | OfHooks, ToMembership (DenomMsg (DCommon (SRemoveHook _))) => to =? a_membership A
      | OfHooks, ToMembership (NftMsg (NAddHook _)) => to =? a_membership A
      | OfHooks, ToMembership (NftMsg (NRemoveHook _)) => to =? a_membership A
      | OfHooks, ToMembership (MultisigMsg (MAddHook _)) => to =? a_membership A
      | OfHooks, ToMembership (MultisigMsg (MRemoveHook _)) => to =? a_membership A
      | OfMembers, ToMembership (MultisigMsg (MUpdateMembers _)) => to =? a_membership A
      | OfMembers, ToMembership (MultisigMsg (MSetMembers _)) => to =? a_membership A
      | _, _ => false
      end
  | _ => false
  end.

(** An action that is about the setting [k]. Messages that the treasury or the enterprise contract is to send are about none. *)
Definition concerns (A : addrs) (k : setting) (a : proposal_action) : bool :=
  match k, a with
  | _, PExecuteMsgs msgs => existsb (asks A k) (given msgs)
  | OfMetadata, PUpdateMetadata _ => true
  | OfRules, PUpdateGovConfig _ => true
  | OfPeriod, PUpdateGovConfig u => match gu_unlocking_period u with Change _ => true | NoChange => false end
  | OfCouncil, PUpdateCouncil _ => true
  | OfAssets, PUpdateAssets None _ _ => true
  | OfNfts, PUpdateNfts None _ _ => true
  | OfVersion, PUpgradeDao _ _ => true
  | OfMembers, PModifyMultisig _ => true
  | OfMinimum, PUpdateMinimumWeight _ => true
  | _, _ => false
  end.

(** Between [w] and [w'] the actions of proposal [id] were run (and not rolled back). *)
Definition ran_since {X} (A : addrs) (w w' : world X) (id : N) : Prop :=
  exists l s coins, w_log w' = l ++ w_log w /\ In (s, WasmExecute (a_controller A) (ToController (CExecuteActions id)) coins) l.

(** Between [w] and [w'] a proposal was run that is about the setting. *)
Definition touched {X} (A : addrs) (k : setting) (w w' : world X) : Prop :=
  exists id p a, ran_since A w w' id /\ oget (ct_proposals (w_ctl w')) id = Some p /\ In a (pi_actions p) /\ concerns A k a = true.

(** The contract that keeps the setting takes the controller's orders. Nothing is to be said about those kept by the controller and the enterprise contract. *)
Definition in_charge {X} (A : addrs) (k : setting) (w : world X) : Prop :=
  match k with
  | OfCouncil => exists m, w_council w = MMultisig m /\ m_enterprise m = a_enterprise A
  | OfMinimum => f_admin (w_funds w) = a_controller A
  | OfAssets | OfNfts => tr_admin (w_treasury w) = a_controller A
  | OfPeriod | OfHooks | OfMembers => m_enterprise (members_of (w_member w)) = a_enterprise A
  | _ => True
  end.
