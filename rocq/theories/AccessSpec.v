(** Who may tell the contracts of a DAO what, judged by what had been delivered before. *)
From Verif Require Import Base OMap Assets PollModel FundsModel MemberModel MemberSpec Msgs ControllerModel TreasuryModel EnterpriseModel OutpostsModel
  WorldModel WorldSpec LiveSpec OrderSpec RecountSpec.

(** The rest of the wiring of a DAO that has just been created. *)
Record in_place {X} (A : addrs) (w : world X) : Prop := mk_in_place {
  ip_council : m_enterprise (members_of (w_council w)) = a_enterprise A;
  ip_funds : f_admin (w_funds w) = a_controller A;
  ip_rewards : f_enterprise (w_funds w) = a_enterprise A;
  ip_treasury : tr_admin (w_treasury w) = a_controller A;
  ip_outposts : op_enterprise (w_outposts w) = a_enterprise A
}.

(** Who commands the treasury after the messages [l] (the newest first): the controller, until it is replaced. *)
Fixpoint treasurer (A : addrs) (l : list (addr * cosmos_msg)) : addr :=
  match l with
  | [] => a_controller A
  | (_, WasmExecute to (ToTreasury (TrSetAdmin a)) _) :: before => if to =? a_treasury A then a else treasurer A before
  | _ :: before => treasurer A before
  end.

(** [c] is the contract of the collection that is staked, if the contract was made as [st]; for a collection from another chain,
    the one that the bridge names at some time. *)
Definition collection {X} (Out : outside X) (st : nft_staking) (c : addr) : Prop :=
  match ns_contract st with
  | NCw721 a => a = c
  | NIcs721 p k => exists x, x_ics721 Out x p k = Ok (Some c)
  end.

Definition self_or_none (s : addr) (u : option N) : Prop := match u with Some v => v = s | None => True end.

(** Calls of a membership contract at [a] that was made as [st0]; [n] is what the caller [s] weighs there. *)
Definition may_tell_members {X} (Out : outside X) (A : addrs) (st0 : member_state) (n : N) (s : addr) (m : member_msg) (coins : list coin) : Prop :=
  match m with
  | TokenMsg (TReceive _ _) => exists st, st0 = MToken st /\ st_asset st = Cw20 s
  | DenomMsg (DStake _) => exists st d k, st0 = MDenom st /\ coins = [(d, k)] /\ st_asset st = Native d
  | NftMsg (NReceive _ _) => exists st, st0 = MNft st /\ collection Out st s
  | TokenMsg (TCommon (SUnstake k)) | DenomMsg (DCommon (SUnstake k)) => k <= n
  | NftMsg (NUnstake ts) => N.of_nat (length ts) <= n
  | TokenMsg (TCommon (SClaim u)) | DenomMsg (DCommon (SClaim u)) | NftMsg (NClaim u) => self_or_none s u
  | TokenMsg (TCommon (SUpdatePeriod _)) | DenomMsg (DCommon (SUpdatePeriod _)) | NftMsg (NUpdatePeriod _)
  | TokenMsg (TCommon (SAddHook _)) | DenomMsg (DCommon (SAddHook _)) | NftMsg (NAddHook _) | MultisigMsg (MAddHook _)
  | TokenMsg (TCommon (SRemoveHook _)) | DenomMsg (DCommon (SRemoveHook _)) | NftMsg (NRemoveHook _) | MultisigMsg (MRemoveHook _) => s = a_controller A
  | MultisigMsg (MUpdateMembers _) | MultisigMsg (MSetMembers _) => s = a_controller A /\ exists q, st0 = MMultisig q
  end.

(** Calls of the controller; [n] is what the caller weighs as a member, [k] as a councillor. *)
Definition may_tell_controller {X} (Out : outside X) (A : addrs) (w0 : world X) (n k : N) (s : addr) (m : controller_msg) : Prop :=
  match m with
  | CCreateProposal _ _ | CExecuteProposal _ => True
  | CCreateProposalNft _ _ _ => exists st, w_member w0 = MNft st
  | CReceive _ _ _ => exists st, w_member w0 = MToken st /\ st_asset st = Cw20 s
  | CCreateCouncilProposal _ | CCastCouncilVote _ _ => k <> 0
  | CCastVote _ _ => n <> 0
  | CWeightsChanged _ => s = a_membership A \/ s = a_council A
  | CExecuteActions _ => s = a_controller A
  | CDeployInitial => exists x, x_creator Out x (a_controller A) = Ok s
  end.

(** [s] may say [m] to a DAO that began as [w0], after the messages [l]. *)
Definition entitled {X} (Out : outside X) (A : addrs) (w0 : world X) (l : list (addr * cosmos_msg)) (s : addr) (m : cosmos_msg) : Prop :=
  let n := recount (a_membership A) s (weight_of (w_member w0) s) l in
  let k := recount (a_council A) s (weight_of (w_council w0) s) l in
  match m with
  | WasmExecute to wm coins =>
      (to = a_controller A -> exists cm, wm = ToController cm /\ may_tell_controller Out A w0 n k s cm) /\
      (to = a_governance A -> exists gm, wm = ToGovernance gm /\ s = a_controller A) /\
      (to = a_membership A -> exists mm, wm = ToMembership mm /\ may_tell_members Out A (w_member w0) n s mm coins) /\
      (to = a_council A -> exists mm, wm = ToMembership mm /\ may_tell_members Out A (w_council w0) k s mm coins) /\
      (to = a_funds A -> exists fm, wm = ToFunds fm /\
         match fm with
         | FUpdateUserWeights _ | FUpdateMinimum _ => s = a_controller A
         | FClaim u _ _ => u = s
         | FDistributeNative | FReceive _ _ => True
         end) /\
      (to = a_treasury A -> exists tm, wm = ToTreasury tm /\
         match tm with TrMigrationStep _ => True | _ => s = treasurer A l end) /\
      (to = a_enterprise A -> exists em, wm = ToEnterprise em /\ s = a_controller A /\ forall c, em <> EnFinalize c) /\
      (to = a_outposts A -> exists om, wm = ToOutposts om /\ match om with OpDeploy _ | OpExecute _ _ => s = a_controller A | OpCallback _ _ => True end)
  | WasmMigrate a _ _ | WasmUpdateAdmin a _ => In a (dao_addrs A) -> s = a_enterprise A
  | _ => True
  end.

(** * Accounts that have not agreed to the DAO's text *)

(** [u] has never signed anything. *)
Definition never_signs {X} (Out : outside X) (u : addr) : Prop := forall x a, x_signed Out x a u <> Ok true.
(** The DAO has a text to agree to, and has not dropped it. *)
Definition has_text {X} (w : world X) : Prop := exists c a, en_components (w_enterprise w) = Some c /\ c_attestation c = Some a.
Definition text_kept {X} (A : addrs) (w : world X) : Prop :=
  forall s coins, ~ In (s, WasmExecute (a_enterprise A) (ToEnterprise EnRemoveAttestation) coins) (w_log w).

(** What such an account is kept from: proposing, voting, executing, claiming rewards, and (also by others' doing) getting votes by staking. *)
Definition kept_from (A : addrs) (u s : addr) (m : cosmos_msg) : Prop :=
  match m with
  | WasmExecute to (ToController cm) _ => to = a_controller A /\
      match cm with
      | CCreateProposal _ _ | CCreateProposalNft _ _ _ | CCreateCouncilProposal _ | CCastVote _ _ | CCastCouncilVote _ _ | CExecuteProposal _ => s = u
      | CReceive from _ _ => from = u
      | _ => False
      end
  | WasmExecute to (ToFunds (FClaim v _ _)) _ => to = a_funds A /\ v = u
  | WasmExecute to (ToMembership mm) _ => (to = a_membership A \/ to = a_council A) /\
      match mm with
      | TokenMsg (TReceive _ (HStake v)) | NftMsg (NReceive _ (NStake v)) => v = u
      | TokenMsg (TReceive _ (HAddStakes l)) => entries u l <> 0
      | DenomMsg (DStake (Some v)) => v = u
      | DenomMsg (DStake None) => s = u
      | _ => False
      end
  | _ => False
  end.
