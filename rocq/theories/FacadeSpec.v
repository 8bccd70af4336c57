(** What the properties of the facade mean, independently of how the model computes. *)
From Verif Require Import Base OMap OMapLemmas Assets PollModel PollSpec FundsModel MemberModel MemberSpec Msgs ControllerModel
  ControllerSpec TreasuryModel EnterpriseModel OutpostsModel WorldModel WorldSpec FacadeModel FacadeV1Model.

(** The admin of the treasury has never been replaced. *)
Definition treasury_kept {X} (A : addrs) (w : world X) : Prop :=
  forall s a coins, ~ In (s, WasmExecute (a_treasury A) (ToTreasury (TrSetAdmin a)) coins) (w_log w).

(** The membership contract of the DAO is of the kind that the enterprise contract records, for [asset]: the denom, the
    token, the collection (for a collection on another chain: the one the bridge names). *)
Inductive backed {X} (Out : outside X) (w : world X) : dao_type -> N -> Prop :=
| BackedDenom s d : w_member w = MDenom s -> st_asset s = Native d -> backed Out w DaoDenom d
| BackedToken s t : w_member w = MToken s -> st_asset s = Cw20 t -> backed Out w DaoToken t
| BackedNft s c : w_member w = MNft s -> ns_contract s = NCw721 c -> backed Out w DaoNft c
| BackedBridged s p k c : w_member w = MNft s -> ns_contract s = NIcs721 p k -> x_ics721 Out (w_ext w) p k = Ok (Some c) ->
    backed Out w DaoNft c
| BackedMultisig m : w_member w = MMultisig m -> backed Out w DaoMultisig 0.

Definition call_controller (A : addrs) (m : controller_msg) : cosmos_msg := WasmExecute (a_controller A) (ToController m) [].
Definition call_membership (A : addrs) (m : member_msg) : cosmos_msg := WasmExecute (a_membership A) (ToMembership m) [].

(** The messages a user has to send for a request, to a DAO of the given type with the given asset; [None]: not possible.
    Execution of proposals is left out. *)
Definition messages (A : addrs) (t : dao_type) (asset : N) (r : adapt_request) : option (list cosmos_msg) :=
  match r, t with
  | ACreateProposal actions owner, _ => Some [call_controller A (CCreateProposal actions owner)]
  | ACreateWithDenom actions owner n, DaoDenom =>
      Some [WasmExecute (a_controller A) (ToController (CCreateProposal actions owner)) [(asset, n)]]
  | ACreateWithToken actions owner n, DaoToken =>
      Some [WasmExecute asset (ToCw20 (Cw20Send (a_controller A) n (HookProposal actions owner))) []]
  | ACreateWithNfts actions owner tokens, DaoNft =>
      Some (map (fun k => WasmExecute asset (ToCw721 (Cw721Approve (a_controller A) k)) []) tokens ++
            [call_controller A (CCreateProposalNft actions owner tokens)])
  | ACreateCouncil actions _, _ => Some [call_controller A (CCreateCouncilProposal actions)]
  | ACastVote id o, _ => Some [call_controller A (CCastVote id o)]
  | ACastCouncilVote id o, _ => Some [call_controller A (CCastCouncilVote id o)]
  | AStake (StDenom user n), DaoDenom =>
      Some [WasmExecute (a_membership A) (ToMembership (DenomMsg (DStake (Some user)))) [(asset, n)]]
  | AStake (StCw20 user n), DaoToken =>
      Some [WasmExecute asset (ToCw20 (Cw20Send (a_membership A) n (HookMember (HStake user)))) []]
  | AStake (StCw721 user tokens), DaoNft =>
      Some (map (fun k => WasmExecute asset (ToCw721 (Cw721Send (a_membership A) k (NStake user))) []) tokens)
  | AUnstake (UnDenom n), _ => Some [call_membership A (DenomMsg (DCommon (SUnstake n)))]
  | AUnstake (UnCw20 n), _ => Some [call_membership A (TokenMsg (TCommon (SUnstake n)))]
  | AUnstake (UnCw721 tokens), _ => Some [call_membership A (NftMsg (NUnstake tokens))]
  | AClaim, DaoDenom => Some [call_membership A (DenomMsg (DCommon (SClaim None)))]
  | AClaim, DaoToken => Some [call_membership A (TokenMsg (TCommon (SClaim None)))]
  | AClaim, DaoNft => Some [call_membership A (NftMsg (NClaim None))]
  | _, _ => None
  end.

(** * Cross-chain messages *)

(** The chain whose treasury an action is for, if it is not the DAO's own. *)
Definition remote_chain (a : proposal_action) : list N :=
  match a with
  | PUpdateAssets (Some x) _ _ | PUpdateNfts (Some x) _ _ | PRequestFunding (Some x) _ _ | PExecuteTreasuryMsgs _ (Some x) =>
      [x_chain x]
  | PDeployTreasury d => [x_chain (dt_spec d)]
  | _ => []
  end.

(** Number of calls of the outposts contract among messages. *)
Definition outposts_calls (A : addrs) (l : list sub_msg) : N :=
  N.of_nat (length (filter (fun x => match sm_msg x with WasmExecute to (ToOutposts _) _ => to =? a_outposts A | _ => false end) l)).

(** Coins of a denom that leave the chain with messages. *)
Definition sent_abroad (denom : N) (l : list sub_msg) : N :=
  lsum (fun x => match sm_msg x with IbcTransfer _ _ d n _ _ _ _ => if d =? denom then n else 0 | _ => 0 end) l.

(** No message that an action has the controller send as it is calls the outposts contract. *)
Definition no_own_calls (A : addrs) (p : proposal_info) : Prop :=
  forall m, In m (customs p) -> match m with WasmExecute to (ToOutposts _) _ => to <> a_outposts A | _ => True end.

(** * Information *)

(** What [DaoInfo] names as the DAO's membership asset, and the unlocking period beside it: for a collection on another
    chain the class id since version 1.2.0, before that the collection that the bridge names; for a multisig the DAO itself. *)
Inductive listed {X} (Out : outside X) (A : addrs) (w : world X) : dao_type -> N -> duration -> Prop :=
| ListedDenom s d : w_member w = MDenom s -> st_asset s = Native d -> listed Out A w DaoDenom d (st_period s)
| ListedToken s t : w_member w = MToken s -> st_asset s = Cw20 t -> listed Out A w DaoToken t (st_period s)
| ListedNft s c : w_member w = MNft s -> ns_contract s = NCw721 c -> listed Out A w DaoNft c (ns_period s)
| ListedClass s p k : w_member w = MNft s -> ns_contract s = NIcs721 p k -> version 1 2 0 <= en_version (w_enterprise w) ->
    listed Out A w DaoNft k (ns_period s)
| ListedBridged s p k c : w_member w = MNft s -> ns_contract s = NIcs721 p k -> en_version (w_enterprise w) < version 1 2 0 ->
    x_ics721 Out (w_ext w) p k = Ok (Some c) -> listed Out A w DaoNft c (ns_period s)
| ListedMultisig : listed Out A w DaoMultisig (a_enterprise A) (DTime 0).

(** The settings that [DaoInfo] shows are those of the controller; without a veto threshold the threshold is shown. *)
Definition settings_shown (g : gov_config) (v : facade_gov) : Prop :=
  fg_quorum v = gc_quorum g /\ fg_threshold v = gc_threshold g /\
  fg_veto v = match gc_veto_threshold g with Some x => x | None => gc_threshold g end /\
  fg_vote_duration v = gc_vote_duration g /\ fg_minimum_deposit v = gc_minimum_deposit g /\ fg_allow_early v = gc_allow_early g.
Definition council_shown (k : option council_config) (members : list N) (v : option facade_council) : Prop :=
  match k, v with
  | None, None => True
  | Some k, Some v => fk_allowed v = cc_allowed k /\ fk_quorum v = cc_quorum k /\ fk_threshold v = cc_threshold k /\ fk_members v = members
  | _, _ => False
  end.

(** * Versions *)

Definition small_version (v : N * N * N) : Prop := snd (fst v) < 100 /\ snd v < 100.
Definition code_of (v : N * N * N) : N := 10000 * fst (fst v) + 100 * snd (fst v) + snd v.

(** * Answers *)

(** Staked amount in an answer. *)
Definition staked_of (s : user_stake) : N := match s with USDenom n | USToken n | USNft _ n => n | USNone => 0 end.

(** The share of [n] in [total], a decimal with 18 digits, rounded down; nothing of nothing is nothing. *)
Definition share (n total : N) : N := if total =? 0 then 0 else n * DEC / total.

(** * DAOs of the old code *)

(** The translation of an action for a DAO of the old code, which knows neither other chains nor versions; [registry]: the
    code ids of the versions. A treasury of another chain is ignored, except when messages are for it. *)
Inductive translates (registry : N -> res version_info) : proposal_action -> old_action -> Prop :=
| TrMetadata u : translates registry (PUpdateMetadata u) (OUpdateMetadata u)
| TrGov u : translates registry (PUpdateGovConfig u) (OUpdateGovConfig u)
| TrCouncil c : translates registry (PUpdateCouncil c) (OUpdateCouncil c)
| TrAssets t add remove : translates registry (PUpdateAssets t add remove) (OUpdateAssets add remove)
| TrNfts t add remove : translates registry (PUpdateNfts t add remove) (OUpdateNfts add remove)
| TrFunding t to l : translates registry (PRequestFunding t to l) (ORequestFunding to l)
| TrUpgradeNew v msgs i : version 1 0 0 <= v -> registry (version 1 0 0) = Ok i ->
    translates registry (PUpgradeDao v msgs) (OUpgradeDao (vi_treasury i) MIGRATE_TREASURY)
| TrUpgradeOld v msgs i : v < version 1 0 0 -> registry v = Ok i ->
    translates registry (PUpgradeDao v msgs) (OUpgradeDao (vi_enterprise i) MIGRATE_EMPTY)
| TrMsgs ms : translates registry (PExecuteMsgs ms) (OExecuteMsgs ms)
| TrTreasuryMsgs ms : translates registry (PExecuteTreasuryMsgs ms None) (OExecuteMsgs ms)
| TrEnterpriseMsgs ms : translates registry (PExecuteEnterpriseMsgs ms) (OExecuteMsgs ms)
| TrMultisig l : translates registry (PModifyMultisig l) (OModifyMultisig l)
| TrFunds l : translates registry (PDistributeFunds l) (ODistributeFunds l)
| TrMinimum n : translates registry (PUpdateMinimumWeight n) (OUpdateMinimumWeight n).

(** Actions that mean the same to a DAO of the old code: those without a treasury of another chain, and no upgrade. *)
Definition plain_action (a : proposal_action) : Prop :=
  match a with
  | PUpdateMetadata _ | PUpdateGovConfig _ | PUpdateCouncil _ | PUpdateAssets None _ _ | PUpdateNfts None _ _
  | PRequestFunding None _ _ | PExecuteMsgs _ | PModifyMultisig _ | PDistributeFunds _ | PUpdateMinimumWeight _ => True
  | _ => False
  end.

(** The messages for a request to a DAO of the old code at [dao], with the given type and token or collection; [acts] is the
    translation of the actions in it. *)
Definition old_messages (dao : addr) (t : dao_type) (asset : N) (acts : list old_action) (r : adapt_request) : option (list old_call) :=
  match r, t with
  | ACreateProposal _ _, _ => Some [OldCall dao (OCreateProposal acts)]
  | ACreateWithToken _ _ n, DaoToken => if asset =? 0 then None else Some [OldSend20 asset dao n (Some acts)]
  | ACreateCouncil _ _, _ => Some [OldCall dao (OCreateCouncilProposal acts)]
  | ACastVote id o, _ => Some [OldCall dao (OCastVote id o)]
  | ACastCouncilVote id o, _ => Some [OldCall dao (OCastCouncilVote id o)]
  | AExecute id, _ => Some [OldCall dao (OExecuteProposal id)]
  | AStake (StCw20 _ n), _ => if asset =? 0 then None else Some [OldSend20 asset dao n None]
  | AStake (StCw721 _ tokens), _ => if asset =? 0 then None else Some (map (OldSend721 asset dao) tokens)
  | AUnstake (UnCw20 n), _ => Some [OldCall dao (OUnstakeCw20 n)]
  | AUnstake (UnCw721 tokens), _ => Some [OldCall dao (OUnstakeCw721 tokens)]
  | AClaim, _ => Some [OldCall dao OClaim]
  | _, _ => None
  end.
(** The actions in a request. *)
Definition actions_in (r : adapt_request) : list proposal_action :=
  match r with ACreateProposal l _ | ACreateWithToken l _ _ | ACreateCouncil l _ => l | _ => [] end.

(** Votes for an outcome. *)
Definition votes_on (results : omap N) (o : outcome) : N := ogetN results (outcome_u8 o).
Definition cast_on (results : omap N) : N := votes_on results Yes + votes_on results No + votes_on results Abstain + votes_on results Veto.
(** The verdict on votes under a quorum, threshold and veto threshold. *)
Definition judged_by (quorum threshold veto : N) (results : omap N) (total : N) : poll_status -> Prop :=
  verdict quorum threshold veto (votes_on results Yes) (votes_on results No) (votes_on results Abstain) (votes_on results Veto) total.
(** Votes of a real proposal: for the four outcomes only, fewer than 2^128 together; their share of the total is a decimal. *)
Definition real_votes (results : omap N) (total : N) : Prop :=
  (forall k, oget results k <> None -> k <= 3) /\ cast_on results < M128 /\ cast_on results * DEC / total < M128.

(** Status shown for a proposal of a DAO of the old code, which ends at [ends] and is judged by the settings [g]. *)
Inductive shown (e : env) (g : old_gov) (p : old_proposal) (ends : N) : proposal_status -> Prop :=
| ShPassed : op_status p = OSPassed -> shown e g p ends PSPassed
| ShRejected : op_status p = OSRejected -> shown e g p ends PSRejected
| ShExecuted : op_status p = OSExecuted -> shown e g p ends PSExecuted
| ShEndedPassed n : op_status p = OSInProgress -> ends <= e_time e ->
    judged_by (og_quorum g) (og_threshold g) (dflt (og_threshold g) (og_veto g)) (op_results p) (op_total p) (Passed 0 n) ->
    shown e g p ends PSPassed
| ShEndedRejected r : op_status p = OSInProgress -> ends <= e_time e ->
    judged_by (og_quorum g) (og_threshold g) (dflt (og_threshold g) (og_veto g)) (op_results p) (op_total p) (Rejected r) ->
    shown e g p ends PSRejected
| ShWaiting : op_status p = OSInProgress -> e_time e < ends -> op_type p = General -> og_allow_early g = false ->
    shown e g p ends PSInProgress
| ShEarly st : op_status p = OSInProgress -> e_time e < ends -> op_type p = Council \/ og_allow_early g = true ->
    judged_by (og_quorum g) (og_threshold g) (dflt (og_threshold g) (og_veto g)) (op_results p) (op_total p) st ->
    shown e g p ends
      (match st with
       | Rejected (QuorumNotReached | ThresholdNotReached | QuorumAndThresholdNotReached) => PSInProgress
       | _ => PSCanExecuteEarly
       end).

(** * Execution of proposals *)

(** Messages that execute proposal [id] with these actions: one uluna for each message to another chain, then the call. *)
Definition execution (A : addrs) (id : N) (actions : list proposal_action) : list cosmos_msg :=
  let n := N.of_nat (length (flat_map remote_chain actions)) in
  (if n =? 0 then [] else [BankSend (a_outposts A) [(ULUNA, n)]]) ++ [call_controller A (CExecuteProposal id)].

(** The claims of a user that the membership contract holds, as shown. *)
Definition booked_claims (m : member_state) (u : N) : list (claim_asset * release_at) :=
  match m with
  | MDenom s => map (fun c => (CADenom (cl_amount c), cl_release c)) (filter (fun c => cl_user c =? u) (ovals (st_claims s)))
  | MToken s => map (fun c => (CACw20 (cl_amount c), cl_release c)) (filter (fun c => cl_user c =? u) (ovals (st_claims s)))
  | MNft s => map (fun c => (CACw721 (nc_tokens c), nc_release c)) (filter (fun c => nc_user c =? u) (ovals (ns_claims s)))
  | MMultisig _ => []
  end.

(** Something of the time before the migration has not been moved yet. *)
Definition left_behind (t : treasury) : Prop :=
  exists k, ohas (og_stakes (tr_old t)) k = true \/ ohas (og_nfts (tr_old t)) k = true \/ ohas (og_claims (tr_old t)) k = true.
