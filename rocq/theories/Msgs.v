(** Messages passed between the contracts of a DAO.

    One typed value stands for each message that the code serialises to JSON. A message that reaches a
    contract of another kind does not parse there; [None] in a list of raw messages stands for a string
    that is not a CosmosMsg. Labels, titles and other text that no logic reads are dropped. Version
    numbers (major, minor, patch) are encoded in one number that orders the same way ([version]). *)
From Verif Require Import Base Assets PollModel FundsModel MemberModel.

(** packages/enterprise-versioning-api/src/api.rs [Version], derived lexicographic order; the components
    are u64 *)
Definition version (major minor patch : N) : N := (major * M64 + minor) * M64 + patch.

(** packages/enterprise-protocol/src/api.rs [DaoType] *)
Inductive dao_type := DaoDenom | DaoToken | DaoNft | DaoMultisig.
Definition dao_type_eqb (a b : dao_type) : bool :=
  match a, b with
  | DaoDenom, DaoDenom | DaoToken, DaoToken | DaoNft, DaoNft | DaoMultisig, DaoMultisig => true
  | _, _ => false
  end.

(** packages/enterprise-protocol/src/api.rs [DaoMetadata], [DaoSocialData]; texts are numbers *)
Record metadata := mk_metadata {
  md_name : N;
  md_description : option N;
  md_logo : option N;
  md_github : option N;
  md_discord : option N;
  md_twitter : option N;
  md_telegram : option N
}.

(** packages/enterprise-protocol/src/api.rs [UpdateMetadataMsg] *)
Record metadata_update := mk_metadata_update {
  mu_name : modify N;
  mu_description : modify (option N);
  mu_logo : modify (option N);
  mu_github : modify (option N);
  mu_discord : modify (option N);
  mu_twitter : modify (option N);
  mu_telegram : modify (option N)
}.

(** contracts/enterprise/src/state.rs [ComponentContracts]; also [FinalizeInstantiationMsg] *)
Record components := mk_components {
  c_governance : N;
  c_controller : N;
  c_treasury : N;
  c_outposts : N;
  c_funds : N;
  c_membership : N;
  c_council : N;
  c_attestation : option N
}.

(** packages/enterprise-governance-controller-api/src/api.rs:36-58 [GovConfig] *)
Record gov_config := mk_gov_config {
  gc_quorum : N;
  gc_threshold : N;
  gc_veto_threshold : option N;
  gc_vote_duration : N;
  gc_minimum_deposit : option N;
  gc_allow_early : bool
}.

(** same file:182-191 [UpdateGovConfigMsg] *)
Record gov_config_update := mk_gov_config_update {
  gu_quorum : modify N;
  gu_threshold : modify N;
  gu_veto_threshold : modify (option N);
  gu_vote_duration : modify N;
  gu_unlocking_period : modify duration;
  gu_minimum_deposit : modify (option N);
  gu_allow_early : modify bool
}.

(** same file:142-161 [ProposalActionType] *)
Inductive action_type :=
| TUpdateMetadata | TUpdateGovConfig | TUpdateCouncil | TUpdateAssetWhitelist | TUpdateNftWhitelist
| TRequestFunding | TUpgradeDao | TExecuteMsgs | TExecuteTreasuryMsgs | TExecuteEnterpriseMsgs
| TModifyMultisig | TDistributeFunds | TUpdateMinimumWeight | TDeployTreasury.

Definition action_type_eq_dec (a b : action_type) : {a = b} + {a <> b}.
Proof. decide equality. Defined.
Definition action_type_eqb (a b : action_type) : bool := if action_type_eq_dec a b then true else false.

(** same file:67-84 [DaoCouncilSpec] *)
Record council_spec := mk_council_spec {
  cs_members : list N;
  cs_quorum : N;
  cs_threshold : N;
  cs_allowed : option (list action_type)
}.

(** same file:60-65 [CouncilGovConfig] *)
Record council_config := mk_council_config {
  cc_allowed : list action_type;
  cc_quorum : N;
  cc_threshold : N
}.

(** packages/enterprise-outposts-api/src/api.rs [CrossChainMsgSpec] *)
Record cross_spec := mk_cross_spec {
  x_chain : N;
  x_prefix : N;
  x_src_port : N;
  x_src_channel : N;
  x_dest_port : N;
  x_dest_channel : N;
  x_uluna : N;
  x_timeout : option N
}.

(** packages/enterprise-outposts-api/src/api.rs [DeployCrossChainTreasuryMsg] *)
Record deploy_spec := mk_deploy_spec {
  dt_spec : cross_spec;
  dt_assets : option (list asset);
  dt_nfts : option (list N);
  dt_proxy_code : N;
  dt_treasury_code : N;
  dt_global_proxy : N
}.

(** contracts/enterprise-outposts/src/ibc_hooks.rs [ReplyCallback] *)
Record reply_callback := mk_reply_callback {
  rc_id : N;
  rc_port : N;
  rc_channel : N;
  rc_denom : N;
  rc_receiver : N
}.

(** All messages. [WasmExecute contract msg funds], [WasmInstantiate admin code msg],
    [WasmMigrate contract code msg], [WasmUpdateAdmin contract admin]; [IbcTransfer port channel denom amount
    receiver timeout msg callback] is the MsgTransfer of contracts/enterprise-outposts/src/ibc_hooks.rs:95-149,
    whose memo asks the proxy [receiver] to run [msg] and reply to [callback]. [OtherMsg] is any other
    CosmosMsg. *)
Inductive cosmos_msg :=
| BankSend (to : N) (coins : list coin)
| WasmExecute (contract : N) (m : wasm_msg) (funds : list coin)
| WasmInstantiate (admin : option N) (code : N) (m : init_msg)
| WasmMigrate (contract code msg : N)
| WasmUpdateAdmin (contract admin : N)
| IbcTransfer (port channel denom amount receiver timeout : N) (m : cosmos_msg) (callback : option reply_callback)
| OtherMsg (k : N)

with wasm_msg :=
| ToController (m : controller_msg)
| ToGovernance (m : gov_msg)
| ToMembership (m : member_msg)
| ToFunds (m : funds_msg)
| ToTreasury (m : treasury_msg)
| ToEnterprise (m : enterprise_msg)
| ToOutposts (m : outposts_msg)
| ToCw20 (m : cw20_msg)
| ToCw721 (m : cw721_msg)
| ToCw1155 (m : cw1155_msg)
| ToAttestation
| ToFactory (m : factory_msg)
| ToOther (k : N)

(** Sub-contracts the factory, outposts and enterprise instantiate. *)
with init_msg :=
| InitEnterprise (factory versioning : N) (creation : option N) (t : dao_type) (v : N) (md : metadata)
| InitGovernance (admin : N)
| InitController (enterprise : N) (t : dao_type) (g : gov_config) (council : option council_spec)
    (treasuries : option (list deploy_spec))
| InitTreasury (admin : N) (assets : option (list asset)) (nfts : option (list N))
| InitOutposts (enterprise : N)
| InitFunds (admin enterprise : N) (weights : list (N * N)) (minimum : option N)
| InitMember (i : member_init)
| InitAttestation (text : N)
| InitCw20 (balances : list (N * N)) (minter : N)
| InitCw721 (minter : N)
| InitProxy (owner : N)

(** packages/enterprise-governance-controller-api/src/msg.rs [ExecuteMsg]; [CReceive from amount actions]:
    a cw20 send notification with the [CreateProposal] hook, or another payload ([None]) *)
with controller_msg :=
| CCreateProposal (actions : list proposal_action) (owner : option N)
| CCreateProposalNft (actions : list proposal_action) (owner : option N) (tokens : list N)
| CCreateCouncilProposal (actions : list proposal_action)
| CCastVote (id : N) (o : outcome)
| CCastCouncilVote (id : N) (o : outcome)
| CExecuteProposal (id : N)
| CReceive (from amount : N) (hook : option (list proposal_action * option N))
| CWeightsChanged (changes : list weight_change)
| CExecuteActions (id : N)
| CDeployInitial

(** packages/enterprise-governance-controller-api/src/api.rs:163-180 [ProposalAction] *)
with proposal_action :=
| PUpdateMetadata (u : metadata_update)
| PUpdateGovConfig (u : gov_config_update)
| PUpdateCouncil (c : option council_spec)
| PUpdateAssets (target : option cross_spec) (add remove : list asset)
| PUpdateNfts (target : option cross_spec) (add remove : list N)
| PRequestFunding (target : option cross_spec) (to : N) (assets : list (asset * N))
| PUpgradeDao (v : N) (msgs : list (N * N))
| PExecuteMsgs (msgs : list (option cosmos_msg))
| PExecuteTreasuryMsgs (msgs : list (option cosmos_msg)) (target : option cross_spec)
| PExecuteEnterpriseMsgs (msgs : list (option cosmos_msg))
| PModifyMultisig (edits : list (N * N))
| PDistributeFunds (funds : list (asset * N))
| PUpdateMinimumWeight (w : N)
| PDeployTreasury (d : deploy_spec)

(** packages/enterprise-treasury-api/src/msg.rs [ExecuteMsg] *)
with treasury_msg :=
| TrSetAdmin (a : N)
| TrUpdateAssets (add remove : list asset)
| TrUpdateNfts (add remove : list N)
| TrSpend (to : N) (assets : list (asset * N))
| TrDistribute (funds : list (asset * N)) (distributor : N)
| TrExecute (msgs : list (option cosmos_msg))
| TrMigrationStep (limit : option N)

(** packages/enterprise-protocol/src/msg.rs [ExecuteMsg] *)
with enterprise_msg :=
| EnFinalize (c : components)
| EnUpdateMetadata (u : metadata_update)
| EnUpgradeDao (v : N) (msgs : list (N * N))
| EnSetAttestation (text : N)
| EnRemoveAttestation
| EnExecuteMsgs (msgs : list (option cosmos_msg))
| EnUpdateConfig (versioning factory : modify N)

(** packages/enterprise-outposts-api/src/msg.rs [ExecuteMsg]; [OpCallback id addr]: the address in the
    reply data, [None] if the data is not that of an instantiation *)
with outposts_msg :=
| OpDeploy (d : deploy_spec)
| OpExecute (m : treasury_msg) (target : cross_spec)
| OpCallback (id : N) (addr : option N)

(** cw20 [Cw20ExecuteMsg]: transfer and send; the payload of a send is the message with which the
    receiving contract is notified *)
with cw20_msg :=
| Cw20Transfer (to amount : N)
| Cw20Send (contract amount : N) (hook : cw20_hook)

with cw20_hook :=
| HookMember (h : token_hook)
| HookDistribute
| HookProposal (actions : list proposal_action) (owner : option N)
| HookOther

with cw721_msg :=
| Cw721Transfer (to token : N)
| Cw721Send (contract token : N) (hook : nft_hook)
| Cw721Approve (spender token : N)

with cw1155_msg :=
| Cw1155Send (from to token amount : N)

(** packages/enterprise-factory-api/src/msg.rs [ExecuteMsg], the part that is sent as a message *)
with factory_msg :=
| FaFinalizeDao.

(** contract.rs:461-478 [to_proposal_action_type] (contracts/enterprise-governance-controller) *)
Definition action_type_of (a : proposal_action) : action_type :=
  match a with
  | PUpdateMetadata _ => TUpdateMetadata
  | PUpdateGovConfig _ => TUpdateGovConfig
  | PUpdateCouncil _ => TUpdateCouncil
  | PUpdateAssets _ _ _ => TUpdateAssetWhitelist
  | PUpdateNfts _ _ _ => TUpdateNftWhitelist
  | PRequestFunding _ _ _ => TRequestFunding
  | PUpgradeDao _ _ => TUpgradeDao
  | PExecuteMsgs _ => TExecuteMsgs
  | PExecuteTreasuryMsgs _ _ => TExecuteTreasuryMsgs
  | PExecuteEnterpriseMsgs _ => TExecuteEnterpriseMsgs
  | PModifyMultisig _ => TModifyMultisig
  | PDistributeFunds _ => TDistributeFunds
  | PUpdateMinimumWeight _ => TUpdateMinimumWeight
  | PDeployTreasury _ => TDeployTreasury
  end.

(** [SubMsg]: a message and when its sender is called back. *)
Inductive reply_on := ReplyNever | ReplySuccess (id : N) | ReplyAlways (id : N).
Record sub_msg := mk_sub { sm_msg : cosmos_msg; sm_reply : reply_on }.
Definition plain (m : cosmos_msg) : sub_msg := mk_sub m ReplyNever.

(** [Reply::result]: on success, what the caller reads from data or events: the poll id of a created poll,
    or the address of an instantiated contract. *)
Inductive reply_result := ROk (data : option N) | RErr.

(** [serde_json_wasm::from_str::<CosmosMsg>] over a list *)
Definition parse_msgs (l : list (option cosmos_msg)) : res (list cosmos_msg) :=
  map_res (fun m => ok_or m EInvalidArgument) l.

Definition apply_change {A} (old : A) (m : modify A) : A := match m with Change a => a | NoChange => old end.
