(** Model of contracts/enterprise-facade-v1: queries and message adapters for the DAOs of the old code (v0.5.0), which is
    not in the repository. A DAO of the old code is therefore what it answers to the queries of the facade ([old_dao]).
    Texts are dropped, as elsewhere. Paths are relative to contracts/enterprise-facade-v1/src. *)
From Verif Require Import Base OMap Assets PollModel FundsModel MemberModel Msgs ControllerModel TreasuryModel
  EnterpriseModel OutpostsModel WorldModel FacadeModel.

(** * Messages of the old code: v1_structs.rs *)

(** v1_structs.rs:393-406 [ProposalActionV1] and the messages above it. Migration messages are numbers. *)
Inductive old_action :=
| OUpdateMetadata (u : metadata_update)
| OUpdateGovConfig (u : gov_config_update)
| OUpdateCouncil (c : option council_spec)
| OUpdateAssets (add remove : list asset)
| OUpdateNfts (add remove : list N)
| ORequestFunding (to : N) (assets : list (asset * N))
| OUpgradeDao (code msg : N)
| OExecuteMsgs (msgs : list (option cosmos_msg))
| OModifyMultisig (edits : list (N * N))
| ODistributeFunds (funds : list (asset * N))
| OUpdateMinimumWeight (w : N).

(** v1_structs.rs:357-365 [ExecuteV1Msg] *)
Inductive old_msg :=
| OCreateProposal (actions : list old_action)
| OCreateCouncilProposal (actions : list old_action)
| OCastVote (id : N) (o : outcome)
| OCastCouncilVote (id : N) (o : outcome)
| OExecuteProposal (id : N)
| OUnstakeCw20 (amount : N)
| OUnstakeCw721 (tokens : list N)
| OClaim.

(** Adapted messages, all without coins: a call of the DAO; a cw20 send to it with the hook [CreateProposal] or [Stake]
    ([None]), v1_structs.rs:494-498 [Cw20HookV1Msg]; a cw721 send with the hook [Stake], 501-504 [Cw721HookV1Msg] *)
Inductive old_call :=
| OldCall (dao : addr) (m : old_msg)
| OldSend20 (token dao amount : N) (hook : option (list old_action))
| OldSend721 (nft dao token : N).

(** * Answers of a DAO of the old code *)

(** packages/enterprise-facade-api/src/api.rs [GovConfigV1] *)
Record old_gov := mk_old_gov {
  og_quorum : N;
  og_threshold : N;
  og_veto : option N;
  og_vote_duration : N;
  og_unlocking : duration;
  og_minimum_deposit : option N;
  og_allow_early : bool
}.

(** v1_structs.rs:577-587 [DaoInfoResponseV1] *)
Record old_info := mk_old_info {
  oi_creation : N;
  oi_metadata : metadata;
  oi_gov : old_gov;
  oi_council : option facade_council;
  oi_type : dao_type;
  oi_membership : N;
  oi_factory : N;
  oi_funds : N;
  oi_code_version : N
}.

(** v1_structs.rs:442-447 [ProposalStatusV1], 530-541 [ProposalResponseV1] with 461-471 [ProposalV1] *)
Inductive old_status := OSInProgress | OSPassed | OSRejected | OSExecuted.
Record old_proposal := mk_old_proposal {
  op_id : N;
  op_type : proposal_type;
  op_status : old_status;
  op_expires : expiration;
  op_actions : list old_action;
  op_results : omap N;
  op_total : N
}.

(** What the DAO answers; [od_other] to the queries whose answers the facade passes on *)
Record old_dao := mk_old_dao {
  od_info : res old_info;
  od_proposal : N -> res old_proposal;
  od_proposals : option status_filter -> option N -> option N -> res (list old_proposal);
  od_other : facade_query -> res facade_answer
}.

(** * Actions there and back *)

(** The two migration messages that the facade writes: [Empty {}] and [TreasuryV1_0_0MigrationMsg] without a limit *)
Definition MIGRATE_EMPTY : N := 0.
Definition MIGRATE_TREASURY : N := 1.

(** facade_v1.rs:545-617 [map_proposal_action_to_v5], v1_structs.rs:26-353 for the conversions; [registry v]: answer of the
    versioning contract *)
Definition map_action (registry : N -> res version_info) (a : proposal_action) : res old_action :=
  match a with
  | PUpdateMetadata u => Ok (OUpdateMetadata u)
  | PUpdateGovConfig u => Ok (OUpdateGovConfig u)
  | PUpdateCouncil c => Ok (OUpdateCouncil c)
  | PUpdateAssets _ add remove => Ok (OUpdateAssets add remove)
  | PUpdateNfts _ add remove => Ok (OUpdateNfts add remove)
  | PRequestFunding _ to l => Ok (ORequestFunding to l)
  | PUpgradeDao v _ =>
      if version 1 0 0 <=? v then
        i <- registry (version 1 0 0) ;; Ok (OUpgradeDao (vi_treasury i) MIGRATE_TREASURY)
      else
        i <- registry v ;; Ok (OUpgradeDao (vi_enterprise i) MIGRATE_EMPTY)
  | PExecuteMsgs ms => Ok (OExecuteMsgs ms)
  | PExecuteTreasuryMsgs ms target => if is_some target then Err EStd else Ok (OExecuteMsgs ms)
  | PExecuteEnterpriseMsgs ms => Ok (OExecuteMsgs ms)
  | PModifyMultisig l => Ok (OModifyMultisig l)
  | PDistributeFunds l => Ok (ODistributeFunds l)
  | PUpdateMinimumWeight n => Ok (OUpdateMinimumWeight n)
  | PDeployTreasury _ => Err EStd
  end.

(** v1_structs.rs:413-439 [From<ProposalActionV1>] and the conversions above it *)
Definition unmap_action (a : old_action) : proposal_action :=
  match a with
  | OUpdateMetadata u => PUpdateMetadata u
  | OUpdateGovConfig u => PUpdateGovConfig u
  | OUpdateCouncil c => PUpdateCouncil c
  | OUpdateAssets add remove => PUpdateAssets None add remove
  | OUpdateNfts add remove => PUpdateNfts None add remove
  | ORequestFunding to l => PRequestFunding None to l
  | OUpgradeDao code msg => PUpgradeDao (version 0 code 0) [(version 0 code 0, msg)]
  | OExecuteMsgs ms => PExecuteMsgs ms
  | OModifyMultisig l => PModifyMultisig l
  | ODistributeFunds l => PDistributeFunds l
  | OUpdateMinimumWeight n => PUpdateMinimumWeight n
  end.

(** v1_structs.rs:449-458, 473-491, 543-552: conversions of the responses *)
Definition unmap_status (s : old_status) : proposal_status :=
  match s with OSInProgress => PSInProgress | OSPassed => PSPassed | OSRejected => PSRejected | OSExecuted => PSExecuted end.
Definition unmap_proposal (p : old_proposal) : facade_proposal :=
  mk_facade_proposal (op_id p) (op_type p) (unmap_status (op_status p)) (op_expires p) (map unmap_action (op_actions p))
    (op_results p) (op_total p).

(** * Queries *)

(** facade_v1.rs:71-108 [query_dao_info] *)
Definition v1_dao_info (d : old_dao) : res facade_info :=
  i <- od_info d ;;
  let g := oi_gov i in
  Ok (mk_facade_info (oi_creation i) (oi_metadata i)
        (mk_facade_gov (og_quorum g) (og_threshold g) (dflt (og_threshold g) (og_veto g)) (og_vote_duration g)
           (og_unlocking g) (og_minimum_deposit g) (og_allow_early g))
        (oi_council i) (oi_type i) (oi_membership i) (oi_factory i) (oi_funds i) (oi_code_version i)
        (version 0 (oi_code_version i) 0)).

(** cw-utils [Expiration::is_expired] *)
Definition is_expired (x : expiration) (e : env) : bool :=
  match x with AtHeight h => h <=? e_height e | AtTime t => t <=? e_time e | Never => false end.

(** facade_v1.rs:509-543 [resolve_in_progress_proposal_status]; the proposer and the start do not matter to
    [final_status] *)
Definition resolve_status (p : facade_proposal) (g : facade_gov) : res poll_status :=
  match fp_expires p with
  | AtTime ends =>
      Ok (final_status (mk_poll (fp_id p) 0 0 (InProgress ends) 0 ends (fg_quorum g) (fg_threshold g) (Some (fg_veto g))
                          (fp_results p)) (fp_total p))
  | _ => Err EStd
  end.

(** facade_v1.rs:637-695 [fix_proposal_response]; the status stands twice in the response, here once *)
Definition with_status (p : facade_proposal) (s : proposal_status) : facade_proposal :=
  mk_facade_proposal (fp_id p) (fp_type p) s (fp_expires p) (fp_actions p) (fp_results p) (fp_total p).
Definition fix_proposal (e : env) (g : facade_gov) (p : facade_proposal) : res facade_proposal :=
  s <- (match fp_status p with
        | PSInProgress =>
            if is_expired (fp_expires p) e then
              st <- resolve_status p g ;;
              match st with
              | InProgress _ => Err EStd
              | Passed _ _ => Ok PSPassed
              | Rejected _ => Ok PSRejected
              end
            else if (match fp_type p with General => fg_allow_early g | Council => true end) then
              st <- resolve_status p g ;;
              Ok (match st with
                  | InProgress _ => PSInProgress
                  | Passed _ _ => PSCanExecuteEarly
                  | Rejected (QuorumNotReached | ThresholdNotReached | QuorumAndThresholdNotReached) => PSInProgress
                  | Rejected _ => PSCanExecuteEarly
                  end)
            else Ok PSInProgress
        | s => Ok s
        end) ;;
  Ok (with_status p s).

(** facade_v1.rs:163-176 [query_proposal], 178-199 [query_proposals] *)
Definition v1_proposal (e : env) (d : old_dao) (id : N) : res facade_proposal :=
  p <- od_proposal d id ;; i <- v1_dao_info d ;; fix_proposal e (fi_gov i) (unmap_proposal p).
Definition v1_proposals (e : env) (d : old_dao) (f : option status_filter) (s l : option N) : res (list facade_proposal) :=
  ps <- od_proposals d f s l ;; i <- v1_dao_info d ;; map_res (fun p => fix_proposal e (fi_gov i) (unmap_proposal p)) ps.

(** facade_v1.rs:61-312, contract.rs: the queries; [dao] is the address of the DAO *)
Definition v1_query (e : env) (dao : addr) (d : old_dao) (q : facade_query) : res facade_answer :=
  match q with
  | QTreasuryAddress => Ok (AnTreasury dao)
  | QDaoInfo => i <- v1_dao_info d ;; Ok (AnInfo i)
  | QComponents => i <- v1_dao_info d ;; Ok (AnComponents (fi_factory i) None dao (fi_funds i) None)
  | QProposal id => p <- v1_proposal e d id ;; Ok (AnProposal p)
  | QProposals f s l => ps <- v1_proposals e d f s l ;; Ok (AnProposals ps)
  | QProposalStatus id => p <- v1_proposal e d id ;; Ok (AnStatus (fp_status p) (fp_expires p) (fp_results p))
  | QUserStake u _ _ => od_other d (QUserStake u None None)
  | QTreasuries _ _ => Ok (AnTreasuries [])
  | QHasIncompleteMigration | QHasUnmoved => Ok (AnBool false)
  | QMigrationStage => Ok (AnStage StageNotStarted)
  | q => od_other d q
  end.

(** * Adapters *)

(** facade_v1.rs:619-635 [map_create_proposal_msg] *)
Definition map_actions (registry : N -> res version_info) (l : list proposal_action) : res (list old_action) :=
  map_res (map_action registry) l.

(** facade_v1.rs:422-470 [adapt_stake] *)
Definition v1_stake (dao : addr) (d : old_dao) (r : stake_request) : res (list old_call) :=
  match r with
  | StCw20 _ amount =>
      i <- v1_dao_info d ;; token <- addr_validate (fi_membership i) ;; Ok [OldSend20 token dao amount None]
  | StCw721 _ tokens =>
      i <- v1_dao_info d ;; nft <- addr_validate (fi_membership i) ;; Ok (map (OldSend721 nft dao) tokens)
  | StDenom _ _ => Err EUnsupportedOperation
  end.

(** facade_v1.rs:314-495, contract.rs: the adapters *)
Definition v1_adapt (registry : N -> res version_info) (dao : addr) (d : old_dao) (r : adapt_request) : res (list old_call) :=
  match r with
  | ACreateProposal actions _ => l <- map_actions registry actions ;; Ok [OldCall dao (OCreateProposal l)]
  | ACreateWithDenom _ _ _ => Err EUnsupportedOperation
  | ACreateWithToken actions _ amount =>
      i <- v1_dao_info d ;;
      match fi_type i with
      | DaoToken =>
          token <- addr_validate (fi_membership i) ;;
          l <- map_actions registry actions ;;
          Ok [OldSend20 token dao amount (Some l)]
      | _ => Err EUnsupportedOperation
      end
  | ACreateWithNfts _ _ _ => Err EUnsupportedOperation
  | ACreateCouncil actions _ => l <- map_actions registry actions ;; Ok [OldCall dao (OCreateCouncilProposal l)]
  | ACastVote id o => Ok [OldCall dao (OCastVote id o)]
  | ACastCouncilVote id o => Ok [OldCall dao (OCastCouncilVote id o)]
  | AExecute id => Ok [OldCall dao (OExecuteProposal id)]
  | AStake r => v1_stake dao d r
  | AUnstake (UnCw20 n) => Ok [OldCall dao (OUnstakeCw20 n)]
  | AUnstake (UnCw721 l) => Ok [OldCall dao (OUnstakeCw721 l)]
  | AUnstake (UnDenom _) => Err EUnsupportedOperation
  | AClaim => Ok [OldCall dao OClaim]
  end.

(** * The facade as users see it *)

Section Facade.
Context {X : Type}.
Variable Out : outside X.
Variable A : addrs.
Variable F : foreign.
(** the DAOs of the old code, and the registry that the facade for them asks *)
Variable old : addr -> old_dao.
Variable registry : N -> res version_info.

(** contracts/enterprise-facade/src/contract.rs:70-450 [query] *)
Definition facade_ask (w : world X) (e : env) (a : addr) (q : facade_query) : res facade_answer :=
  dispatch A F (fun d => v1_query e d (old d) q) (fun d => v2_query Out A w e d q) w a.

(** An adapted message is for a DAO of the old or of this code *)
Definition facade_adapt (w : world X) (e : env) (a : addr) (r : adapt_request) : res (list old_call + list cosmos_msg) :=
  dispatch A F (fun d => l <- v1_adapt registry d (old d) r ;; Ok (inl l))
    (fun d => l <- v2_adapt Out A w e d r ;; Ok (inr l)) w a.

End Facade.
