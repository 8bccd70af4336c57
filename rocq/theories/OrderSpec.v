(** What the controller and the enterprise contract of a DAO are told to send, independently of how the model computes. *)
From Verif Require Import Base OMap Assets PollModel FundsModel MemberModel Msgs ControllerModel TreasuryModel EnterpriseModel OutpostsModel
  WorldModel WorldSpec PurseSpec.

(** The transfers by which a deposit is handed to [to]. *)
Definition deposit_msgs (to : addr) (a : deposit_asset) : list cosmos_msg :=
  match a with
  | DDenom d n => [BankSend to [(d, n)]]
  | DCw20 t n => [WasmExecute t (ToCw20 (Cw20Transfer to n)) []]
  | DCw721 c ts => map (fun t => WasmExecute c (ToCw721 (Cw721Transfer to t)) []) ts
  end.

(** Messages that the controller sends without being told to by the actions of a proposal: keeping the polls, running the actions of
    a resolved proposal, reporting weights to the distributor, fetching the NFTs of a deposit, the first treasuries on other
    chains, and handing over the deposit of a resolved proposal, to the depositor or to the treasury. *)
Inductive routine {X} (A : addrs) (w : world X) : cosmos_msg -> Prop :=
| ro_poll gm : routine A w (WasmExecute (a_governance A) (ToGovernance gm) [])
| ro_run id p : oget (ct_proposals (w_ctl w)) id = Some p -> pi_executed_at p <> None -> routine A w (run_order A id)
| ro_weights l : routine A w (WasmExecute (a_funds A) (ToFunds (FUpdateUserWeights l)) [])
| ro_fetch c t : routine A w (WasmExecute c (ToCw721 (Cw721Transfer (a_controller A) t)) [])
| ro_deploy d : routine A w (WasmExecute (a_outposts A) (ToOutposts (OpDeploy d)) [])
| ro_deposit id p d to m : oget (ct_proposals (w_ctl w)) id = Some p -> pi_deposit p = Some d -> pi_executed_at p <> None ->
    to = a_treasury A \/ to = dp_depositor d -> In m (deposit_msgs to (dp_asset d)) -> routine A w m.

(** The order to a treasury: that of this chain, or one on another chain. *)
Definition treasury_call (A : addrs) (target : option cross_spec) (m : treasury_msg) : cosmos_msg :=
  match target with
  | None => WasmExecute (a_treasury A) (ToTreasury m) []
  | Some x => WasmExecute (a_outposts A) (ToOutposts (OpExecute m x)) []
  end.
Definition enterprise_call (A : addrs) (m : enterprise_msg) : cosmos_msg := WasmExecute (a_enterprise A) (ToEnterprise m) [].

(** The messages that an action of a proposal means. *)
Definition commands (A : addrs) (a : proposal_action) (m : cosmos_msg) : Prop :=
  match a with
  | PUpdateMetadata u => m = enterprise_call A (EnUpdateMetadata u)
  | PUpdateGovConfig u =>
      exists d, gu_unlocking_period u = Change d /\
        exists mm, In mm [TokenMsg (TCommon (SUpdatePeriod (Some d))); DenomMsg (DCommon (SUpdatePeriod (Some d))); NftMsg (NUpdatePeriod (Some d))] /\
          m = WasmExecute (a_membership A) (ToMembership mm) []
  | PUpdateCouncil None => m = WasmExecute (a_council A) (ToMembership (MultisigMsg (MSetMembers []))) []
  | PUpdateCouncil (Some c) => m = WasmExecute (a_council A) (ToMembership (MultisigMsg (MSetMembers (map (fun u => (u, 1)) (cs_members c))))) []
  | PUpdateAssets target add remove => m = treasury_call A target (TrUpdateAssets add remove)
  | PUpdateNfts target add remove => m = treasury_call A target (TrUpdateNfts add remove)
  | PRequestFunding target to assets => m = treasury_call A target (TrSpend to assets)
  | PUpgradeDao v msgs => m = enterprise_call A (EnUpgradeDao v msgs)
  | PExecuteMsgs msgs => In (Some m) msgs
  | PExecuteTreasuryMsgs msgs target => m = treasury_call A target (TrExecute msgs)
  | PExecuteEnterpriseMsgs msgs => m = enterprise_call A (EnExecuteMsgs msgs)
  | PModifyMultisig edits => m = WasmExecute (a_membership A) (ToMembership (MultisigMsg (MUpdateMembers edits))) []
  | PDistributeFunds funds => m = treasury_call A None (TrDistribute funds (a_funds A))
  | PUpdateMinimumWeight x => m = WasmExecute (a_funds A) (ToFunds (FUpdateMinimum x)) []
  | PDeployTreasury d => m = WasmExecute (a_outposts A) (ToOutposts (OpDeploy d)) []
  end.

(** The proposals whose actions were run, by what was delivered. *)
Definition ran (A : addrs) (l : list (addr * cosmos_msg)) : list N :=
  flat_map (fun x => match snd x with
    | WasmExecute to (ToController (CExecuteActions id)) _ => if to =? a_controller A then [id] else []
    | _ => []
    end) l.
(** The message is ordered by a proposal whose actions were run before: [l] is what had been delivered. *)
Definition commanded {X} (A : addrs) (w : world X) (l : list (addr * cosmos_msg)) (m : cosmos_msg) : Prop :=
  exists id p a, In id (ran A l) /\ oget (ct_proposals (w_ctl w)) id = Some p /\ In a (pi_actions p) /\ commands A a m.

(** From one place to the next: [m] is in the log [log], sent by [s], with [l] before it. *)
Definition sent_after (log : list (addr * cosmos_msg)) (s : addr) (m : cosmos_msg) (l : list (addr * cosmos_msg)) : Prop :=
  exists later, log = later ++ (s, m) :: l.

(** What the enterprise contract sends when it is told [em]: migrations of itself, a new attestation contract, or messages as given. *)
Definition yields (A : addrs) (em : enterprise_msg) (m : cosmos_msg) : Prop :=
  match em with
  | EnUpgradeDao v msgs => exists code b, m = WasmMigrate (a_enterprise A) code b
  | EnSetAttestation t => exists code, m = WasmInstantiate None code (InitAttestation t)
  | EnExecuteMsgs msgs => In (Some m) msgs
  | _ => False
  end.

(** Messages that replace the code of a contract of the DAO, or who may do so. *)
Definition recodes (A : addrs) (m : cosmos_msg) : bool :=
  match m with WasmMigrate a _ _ | WasmUpdateAdmin a _ => is_dao A a | _ => false end.
Definition orders_recoding (A : addrs) (em : enterprise_msg) : bool :=
  match em with
  | EnUpgradeDao _ _ => true
  | EnExecuteMsgs msgs => existsb (recodes A) (given msgs)
  | _ => false
  end.

(** An action that is about the code of the DAO. *)
Definition about_code (A : addrs) (a : proposal_action) : bool :=
  match a with
  | PUpgradeDao _ _ => true
  | PExecuteEnterpriseMsgs msgs => existsb (recodes A) (given msgs)
  | PExecuteMsgs msgs =>
      existsb (fun m => match m with WasmExecute to (ToEnterprise em) _ => (to =? a_enterprise A) && orders_recoding A em | _ => false end) (given msgs)
  | _ => false
  end.

(** The membership contract is of the type that the enterprise contract says, and the council is a multisig. *)
Definition typed {X} (w : world X) : Prop :=
  match en_type (w_enterprise w), w_member w with
  | DaoDenom, MDenom _ | DaoToken, MToken _ | DaoNft, MNft _ | DaoMultisig, MMultisig _ => True
  | _, _ => False
  end /\ exists c, w_council w = MMultisig c.

(** The version registries list this repository's code only. *)
Record own_versions {X} (Out : outside X) : Prop := mk_own_versions {
  ov_codes : forall x x' c k, x_code Out x c = Some k -> x_code Out x' c = Some k;
  ov_list : forall x reg start limit vs, x_versions Out x reg start limit = Ok vs ->
    Forall (fun v => x_code Out x (vi_enterprise v) = Some KEnterprise) vs;
  ov_one : forall x reg n v, x_version Out x reg n = Ok v ->
    x_code Out x (vi_outposts v) = Some KOutposts /\ x_code Out x (vi_funds v) = Some KFunds /\ x_code Out x (vi_token v) = Some KToken /\
    x_code Out x (vi_denom v) = Some KDenom /\ x_code Out x (vi_nft v) = Some KNft /\ x_code Out x (vi_multisig v) = Some KMultisig
}.

(** An action that may give contracts of the DAO code of choice, or another migration admin. *)
Definition picks_code (A : addrs) (a : proposal_action) : bool :=
  match a with
  | PExecuteEnterpriseMsgs msgs => existsb (recodes A) (given msgs)
  | PExecuteMsgs msgs =>
      existsb (fun m => match m with
        | WasmExecute to (ToEnterprise (EnExecuteMsgs l)) _ => (to =? a_enterprise A) && existsb (recodes A) (given l)
        | _ => false
        end) (given msgs)
  | _ => false
  end.
