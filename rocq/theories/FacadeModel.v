(** Model of contracts/enterprise-facade (which contract answers for an address) and
    contracts/enterprise-facade-v2 (queries and message adapters for the DAOs of this code).

    Paths are relative to contracts/enterprise-facade-v2/src unless they start with another directory. The facade
    stores nothing about DAOs: each answer is computed from queries to the contracts of the DAO, here those of a
    [world]. Texts (titles, descriptions, labels) are dropped, and so are fields that the facade copies from
    values that the other models leave out. An adapted message is the message itself instead of its JSON text. *)
From Verif Require Import Base OMap Assets PollModel FundsModel MemberModel Msgs ControllerModel TreasuryModel
  EnterpriseModel OutpostsModel WorldModel.

(** * Requests and answers: packages/enterprise-facade-api/src/{msg,api}.rs *)

(** api.rs [StakeMsg], [UnstakeMsg] *)
Inductive stake_request :=
| StCw20 (user amount : N)
| StCw721 (user : N) (tokens : list N)
| StDenom (user amount : N).
Inductive unstake_request := UnCw20 (amount : N) | UnCw721 (tokens : list N) | UnDenom (amount : N).

(** msg.rs [QueryMsg], the queries *)
Inductive facade_query :=
| QTreasuryAddress
| QDaoInfo
| QComponents
| QMemberInfo (user : N)
| QMultisigMembers (start_after limit : option N)
| QAssetWhitelist (start_after : option asset) (limit : option N)
| QNftWhitelist (start_after limit : option N)
| QProposal (id : N)
| QProposals (filt : option status_filter) (start_after limit : option N)
| QProposalStatus (id : N)
| QMemberVote (member id : N)
| QProposalVotes (id : N) (start_after limit : option N)
| QUserStake (user : N) (start_after limit : option N)
| QTotalStaked
| QStakedNfts (start_after limit : option N)
| QClaims (owner : N)
| QReleasableClaims (owner : N)
| QTreasuries (start_after limit : option N)
| QHasIncompleteMigration
| QHasUnmoved
| QMigrationStage.

(** msg.rs [QueryMsg], the adapters *)
Inductive adapt_request :=
| ACreateProposal (actions : list proposal_action) (owner : option N)
| ACreateWithDenom (actions : list proposal_action) (owner : option N) (amount : N)
| ACreateWithToken (actions : list proposal_action) (owner : option N) (amount : N)
| ACreateWithNfts (actions : list proposal_action) (owner : option N) (tokens : list N)
| ACreateCouncil (actions : list proposal_action) (owner : option N)
| ACastVote (id : N) (o : outcome)
| ACastCouncilVote (id : N) (o : outcome)
| AExecute (id : N)
| AStake (r : stake_request)
| AUnstake (r : unstake_request)
| AClaim.

(** api.rs [GovConfigFacade] *)
Record facade_gov := mk_facade_gov {
  fg_quorum : N;
  fg_threshold : N;
  fg_veto : N;
  fg_vote_duration : N;
  fg_unlocking : duration;
  fg_minimum_deposit : option N;
  fg_allow_early : bool
}.

(** api.rs [DaoCouncil] *)
Record facade_council := mk_facade_council {
  fk_members : list N;
  fk_allowed : list action_type;
  fk_quorum : N;
  fk_threshold : N
}.

(** api.rs [DaoInfoResponse] *)
Record facade_info := mk_facade_info {
  fi_creation : N;
  fi_metadata : metadata;
  fi_gov : facade_gov;
  fi_council : option facade_council;
  fi_type : dao_type;
  fi_membership : N;
  fi_factory : N;
  fi_funds : N;
  fi_code_version : N;
  fi_version : N
}.

(** api.rs [UserStake] *)
Inductive user_stake := USDenom (amount : N) | USToken (amount : N) | USNft (tokens : list N) (amount : N) | USNone.

(** api.rs [Claim], [ClaimAsset] *)
Inductive claim_asset := CADenom (amount : N) | CACw20 (amount : N) | CACw721 (tokens : list N).

(** api.rs [V2MigrationStage] *)
Inductive stage_view := StageNotStarted | StageInProgress | StageCompleted.

(** api.rs [Proposal], [ProposalResponse] *)
Record facade_proposal := mk_facade_proposal {
  fp_id : N;
  fp_type : proposal_type;
  fp_status : proposal_status;
  fp_expires : expiration;
  fp_actions : list proposal_action;
  fp_results : omap N;
  fp_total : N
}.

(** facade_v2.rs:1330-1357 [map_proposal], [map_proposal_response] *)
Definition map_view (v : proposal_view) : facade_proposal :=
  mk_facade_proposal (vw_id v) (vw_type v) (vw_status v) (AtTime (vw_expires v)) (vw_actions v) (vw_results v) (vw_total v).

(** The answers; [AnComponents factory registry enterprise distributor others]: [None] for a DAO of the old code *)
Inductive facade_answer :=
| AnTreasury (a : addr)
| AnInfo (i : facade_info)
| AnComponents (factory : addr) (registry : option addr) (enterprise funds : addr) (others : option components)
| AnMember (voting_power : N)
| AnMembers (l : list (N * N))
| AnAssets (l : list asset)
| AnNfts (l : list N)
| AnProposal (p : facade_proposal)
| AnProposals (l : list facade_proposal)
| AnStatus (s : proposal_status) (expires : expiration) (results : omap N)
| AnVote (v : option vote)
| AnVotes (l : list vote)
| AnStake (s : user_stake)
| AnTotal (n : N)
| AnStaked (l : list N)
| AnClaims (l : list (claim_asset * release_at))
| AnTreasuries (l : list (N * N))
| AnBool (b : bool)
| AnStage (s : stage_view).

(** * Queries of the other contracts that only the facade makes *)

(** contracts/enterprise-governance-controller/src/contract.rs:1564-1578 [query_gov_config]: settings, settings of
    the council, membership and council membership contracts *)
Definition query_gov_config (o : ctl_oracle) (s : ctl) : res (gov_config * option council_config * addr * addr) :=
  c <- co_components o ;;
  Ok (ct_config s, ct_council s, c_membership c, c_council c).

(** packages/token-staking-impl/src/query.rs:23-33 [query_token_config], packages/denom-staking-impl/src/query.rs:23-32
    [query_denom_config]: token or denom, and period. A query of another kind of contract does not parse. *)
Definition token_config (m : member_state) : res (addr * duration) :=
  match m with MToken s => match st_asset s with Cw20 t => Ok (t, st_period s) | _ => Err EStd end | _ => Err EStd end.
Definition denom_config (m : member_state) : res (N * duration) :=
  match m with MDenom s => match st_asset s with Native d => Ok (d, st_period s) | _ => Err EStd end | _ => Err EStd end.
(** packages/nft-staking-impl/src/query.rs:30-53 [query_nft_config]; [ics721 proxy class]: the collection that the
    ICS721 proxy knows *)
Definition nft_config (ics721 : addr -> N -> res (option addr)) (m : member_state) : res (addr * duration) :=
  match m with
  | MNft s =>
      c <- (match ns_contract s with
            | NCw721 c => Ok c
            | NIcs721 p class => r <- ics721 p class ;; ok_or r EIcs721NotTransferred
            end) ;;
      Ok (c, ns_period s)
  | _ => Err EStd
  end.
(** packages/nft-staking-impl/src/query.rs:55-77 [query_nft_contract_config] *)
Definition nft_contract_config (m : member_state) : res (nft_contract * duration) :=
  match m with MNft s => Ok (ns_contract s, ns_period s) | _ => Err EStd end.

(** packages/nft-staking-impl/src/query.rs:79-108 [query_user_nft_stake]: token ids and number *)
Definition query_user_nft_stake (m : member_state) (user : N) (start_after limit : option N) : res (list N * N) :=
  match m with
  | MNft s =>
      l <- query_user_nfts s user start_after limit ;;
      Ok (l, member_weight (ns_members s) user)
  | _ => Err EStd
  end.

(** packages/denom-staking-impl/src/query.rs:63-79, token: 64-80, nft: 134-147 [query_claims],
    [query_releasable_claims]; facade_v2.rs:1240-1283 [map_denom_claims_response] and the others *)
Definition claims_view (asset : N -> claim_asset) (l : list claim) : list (claim_asset * release_at) :=
  map (fun c => (asset (cl_amount c), cl_release c)) l.
Definition nft_claims_view (l : list nft_claim) : list (claim_asset * release_at) :=
  map (fun c => (CACw721 (nc_tokens c), nc_release c)) l.
Definition query_claims (t : dao_type) (m : member_state) (user : N) : res (list (claim_asset * release_at)) :=
  match t, m with
  | DaoDenom, MDenom s => u <- addr_validate user ;; Ok (claims_view CADenom (claims_of s u))
  | DaoToken, MToken s => u <- addr_validate user ;; Ok (claims_view CACw20 (claims_of s u))
  | DaoNft, MNft s => u <- addr_validate user ;; Ok (nft_claims_view (nft_claims_of s u))
  | DaoMultisig, _ => Ok []
  | _, _ => Err EStd
  end.
Definition query_releasable_claims (e : env) (t : dao_type) (m : member_state) (user : N)
    : res (list (claim_asset * release_at)) :=
  match t, m with
  | DaoDenom, MDenom s => u <- addr_validate user ;; Ok (claims_view CADenom (releasable_claims s e u))
  | DaoToken, MToken s => u <- addr_validate user ;; Ok (claims_view CACw20 (releasable_claims s e u))
  | DaoNft, MNft s => u <- addr_validate user ;; Ok (nft_claims_view (releasable_nft_claims s e u))
  | DaoMultisig, _ => Ok []
  | _, _ => Err EStd
  end.

(** [Version] components of the encoding [Msgs.version] *)
Definition version_major (v : N) : N := v / (M64 * M64).
Definition version_minor (v : N) : N := (v / M64) mod M64.
Definition version_patch (v : N) : N := v mod M64.

(** facade_v2.rs:161-168: [Uint64::checked_mul], [checked_add] *)
Definition u64_checked (n : N) : res N := if n <? M64 then Ok n else Err EOverflow.
Definition code_version (v : N) : res N :=
  ma <- u64_checked (version_major v * 10000) ;;
  mi <- u64_checked (version_minor v * 100) ;;
  s <- u64_checked (ma + mi) ;;
  u64_checked (s + version_patch v).

(** facade_v2.rs:1012-1024: the actions that make the outposts contract send a message to another chain *)
Definition crosses_chains (a : proposal_action) : bool :=
  match a with
  | PUpdateAssets t _ _ => is_some t
  | PUpdateNfts t _ _ => is_some t
  | PRequestFunding t _ _ => is_some t
  | PExecuteTreasuryMsgs _ t => is_some t
  | PDeployTreasury _ => true
  | _ => false
  end.

(** * contracts/enterprise-facade: which facade *)

(** What contracts outside the DAO answer to the queries of the dispatcher: whether [DaoInfo] answers in the format of
    the old code, the admin in [Config] of a treasury, the enterprise contract in [Config] of a controller (or a
    multisig membership contract: the same format), whether [ComponentContracts] answers. *)
Record foreign := mk_foreign {
  fr_old_info : addr -> bool;
  fr_admin : addr -> res addr;
  fr_config : addr -> res addr;
  fr_components : addr -> bool
}.

(** contracts/enterprise-facade/src/facade.rs:31-35 [FacadeTarget] *)
Inductive facade_target := OldDao (a : addr) | NewDao (a : addr).

Section Facade.
Context {X : Type}.
Variable Out : outside X.
Variable A : addrs.
Variable F : foreign.

(** [DaoInfo] in the format of the old code: none of the contracts here answers so (the enterprise contract's answer has
    other fields, which the parser rejects) *)
Definition old_info_at (a : addr) : bool := if is_dao A a then false else fr_old_info F a.
(** [Config] with an [admin]: the treasury's *)
Definition admin_at (w : world X) (a : addr) : res addr :=
  if a =? a_treasury A then Ok (tr_admin (w_treasury w)) else if is_dao A a then Err EStd else fr_admin F a.
(** [Config] with just an [enterprise_contract]: the controller's and that of a multisig membership contract *)
Definition multisig_enterprise (m : member_state) : res addr :=
  match m with MMultisig m => Ok (m_enterprise m) | _ => Err EStd end.
Definition config_at (w : world X) (a : addr) : res addr :=
  if a =? a_controller A then Ok (ct_enterprise (w_ctl w))
  else if a =? a_membership A then multisig_enterprise (w_member w)
  else if a =? a_council A then multisig_enterprise (w_council w)
  else if is_dao A a then Err EStd else fr_config F a.
(** [ComponentContracts] *)
Definition has_components (w : world X) (a : addr) : bool :=
  if a =? a_enterprise A then is_ok (query_component_contracts (w_enterprise w))
  else if is_dao A a then false else fr_components F a.

(** contracts/enterprise-facade/src/facade.rs:42-66 [get_facade], 68-91, 93-111; the addresses of the two facade
    contracts themselves are left out *)
Definition by_treasury (w : world X) (a : addr) : res facade_target :=
  admin <- admin_at w a ;; en <- config_at w admin ;; Ok (NewDao en).
Definition by_enterprise (w : world X) (a : addr) : res facade_target :=
  if has_components w a then Ok (NewDao a) else Err EStd.
Definition get_facade (w : world X) (a : addr) : res facade_target :=
  if old_info_at a then Ok (OldDao a)
  else match by_treasury w a with Ok t => Ok t | Err _ => by_enterprise w a end.

(** * contracts/enterprise-facade-v2 *)

Definition controller_at (w : world X) (a : addr) : res ctl :=
  if a =? a_controller A then Ok (w_ctl w) else Err ENoSuchContract.
Definition outposts_at (w : world X) (a : addr) : res outposts :=
  if a =? a_outposts A then Ok (w_outposts w) else Err ENoSuchContract.
Definition type_by (w : world X) (en : addr) : res dao_type :=
  e <- enterprise_at A w en ;; Ok (en_type e).

(** facade_v2.rs:92-139: the token, denom, collection or class id behind the membership, and the unlocking period *)
Definition membership_asset (w : world X) (en : addr) (t : dao_type) (v : N) (m : addr) : res (N * duration) :=
  match t with
  | DaoDenom => m <- members_at A w m ;; denom_config m
  | DaoToken => m <- members_at A w m ;; token_config m
  | DaoNft =>
      m <- members_at A w m ;;
      if version 1 2 0 <=? v then
        '(c, p) <- nft_contract_config m ;;
        Ok (match c with NCw721 a => a | NIcs721 _ class => class end, p)
      else nft_config (x_ics721 Out (w_ext w)) m
  | DaoMultisig => Ok (en, DTime 0)
  end.

(** facade_v2.rs:75-207 [query_dao_info] *)
Definition v2_dao_info (w : world X) (en : addr) : res facade_info :=
  e <- enterprise_at A w en ;;
  let '(creation, md, t, v) := query_dao_info e in
  '(factory, _, c) <- query_component_contracts e ;;
  s <- controller_at w (c_controller c) ;;
  '(g, council, membership, councillors) <- query_gov_config (ctl_oracle_of Out A w) s ;;
  '(asset, period) <- membership_asset w en t v membership ;;
  k <- members_at A w councillors ;;
  l <- query_members (members_of k) None (Some 1000) ;;
  let fk := option_map (fun cc => mk_facade_council (map fst l) (cc_allowed cc) (cc_quorum cc) (cc_threshold cc)) council in
  code <- code_version v ;;
  Ok (mk_facade_info creation md
        (mk_facade_gov (gc_quorum g) (gc_threshold g) (dflt (gc_threshold g) (gc_veto_threshold g)) (gc_vote_duration g)
           period (gc_minimum_deposit g) (gc_allow_early g))
        fk t asset factory (c_funds c) code v).

(** facade_v2.rs:234-263 [query_member_info] *)
Definition v2_member_info (w : world X) (en : addr) (user : N) : res N :=
  c <- components_by A w en ;;
  m <- members_at A w (c_membership c) ;;
  n <- query_user_weight (members_of m) user ;;
  let total := query_total_weight (members_of m) Never in
  if total =? 0 then Ok 0 else dec_checked_from_ratio n total.

(** facade_v2.rs:265-302 [query_list_multisig_members] *)
Definition v2_multisig_members (w : world X) (en : addr) (start_after limit : option N) : res (list (N * N)) :=
  t <- type_by w en ;;
  match t with
  | DaoMultisig =>
      c <- components_by A w en ;;
      m <- members_at A w (c_membership c) ;;
      query_members (members_of m) start_after limit
  | _ => Err EUnsupportedOperation
  end.

(** facade_v2.rs:350-370 [query_proposal] and the controller's queries *)
Definition v2_controller (w : world X) (en : addr) : res ctl :=
  c <- components_by A w en ;; controller_at w (c_controller c).
Definition v2_proposal (w : world X) (e : env) (en : addr) (id : N) : res facade_proposal :=
  s <- v2_controller w en ;;
  v <- query_proposal (ctl_oracle_of Out A w) s (e_time e) id ;;
  Ok (map_view v).

(** facade_v2.rs:402-426 [query_proposal_status]; the results are those of the poll *)
Definition v2_proposal_status (w : world X) (e : env) (en : addr) (id : N) : res (proposal_status * N * omap N) :=
  s <- v2_controller w en ;;
  pl <- ctl_poll (ctl_oracle_of Out A w) id ;;
  '(st, ends) <- query_proposal_status (ctl_oracle_of Out A w) s (e_time e) id ;;
  Ok (st, ends, p_results pl).

(** contracts/enterprise-governance-controller/src/contract.rs:1879-1893 [query_member_vote],
    1895-1921 [query_proposal_votes] *)
Definition v2_governance (w : world X) (en : addr) : res gov :=
  s <- v2_controller w en ;; c <- co_components (ctl_oracle_of Out A w) ;; gov_at A w (c_governance c).
Definition v2_member_vote (w : world X) (en : addr) (member id : N) : res (option vote) :=
  g <- v2_governance w en ;; query_poll_voter g id member.
Definition v2_proposal_votes (w : world X) (en : addr) (id : N) (start_after limit : option N) : res (list vote) :=
  g <- v2_governance w en ;; Ok (query_poll_voters g id start_after None (Some (N.min (dflt 50 limit) 100))).

(** facade_v2.rs:479-532 [query_user_stake] *)
Definition v2_user_stake (w : world X) (en : addr) (user : N) (start_after limit : option N) : res user_stake :=
  c <- components_by A w en ;;
  t <- type_by w en ;;
  match t with
  | DaoDenom => m <- members_at A w (c_membership c) ;; n <- query_user_weight (members_of m) user ;; Ok (USDenom n)
  | DaoToken => m <- members_at A w (c_membership c) ;; n <- query_user_weight (members_of m) user ;; Ok (USToken n)
  | DaoNft =>
      m <- members_at A w (c_membership c) ;;
      '(l, n) <- query_user_nft_stake m user start_after limit ;;
      Ok (USNft l n)
  | DaoMultisig => Ok USNone
  end.

(** facade_v2.rs:534-557 [query_total_staked_amount] *)
Definition v2_total_staked (w : world X) (en : addr) : res N :=
  t <- type_by w en ;;
  match t with
  | DaoMultisig => Ok 0
  | _ =>
      c <- components_by A w en ;;
      m <- members_at A w (c_membership c) ;;
      Ok (query_total_weight (members_of m) Never)
  end.

(** facade_v2.rs:559-588 [query_staked_nfts] *)
Definition v2_staked_nfts (w : world X) (en : addr) (start_after limit : option N) : res (list N) :=
  t <- type_by w en ;;
  match t with
  | DaoNft =>
      c <- components_by A w en ;;
      m <- members_at A w (c_membership c) ;;
      match m with MNft s => Ok (query_staked_nfts s start_after limit) | _ => Err EStd end
  | _ => Ok []
  end.

(** facade_v2.rs:590-639 [query_claims], 641-690 [query_releasable_claims] *)
Definition v2_claims (w : world X) (en : addr) (owner : N) : res (list (claim_asset * release_at)) :=
  t <- type_by w en ;;
  match t with
  | DaoMultisig => Ok []
  | _ => c <- components_by A w en ;; m <- members_at A w (c_membership c) ;; query_claims t m owner
  end.
Definition v2_releasable_claims (w : world X) (e : env) (en : addr) (owner : N) : res (list (claim_asset * release_at)) :=
  t <- type_by w en ;;
  match t with
  | DaoMultisig => Ok []
  | _ => c <- components_by A w en ;; m <- members_at A w (c_membership c) ;; query_releasable_claims e t m owner
  end.

Definition v2_treasury (w : world X) (en : addr) : res treasury :=
  c <- components_by A w en ;; treasury_at A w (c_treasury c).

(** facade_v2.rs:705-717 [query_has_incomplete_v2_migration], 719-746 [query_has_unmoved_stakes_or_claims] *)
Definition v2_has_incomplete (w : world X) (en : addr) : res bool :=
  t <- v2_treasury w en ;; Ok (has_incomplete_migration t).
Definition v2_has_unmoved (w : world X) (en : addr) : res bool :=
  i <- v2_dao_info w en ;;
  if fi_version i <? version 1 0 2 then Ok false
  else t <- v2_treasury w en ;; Ok (has_unmoved (tr_old t)).

(** contract.rs:45-179 [query]: the queries; facade_v2.rs:63-761 *)
Definition v2_query (w : world X) (e : env) (en : addr) (q : facade_query) : res facade_answer :=
  match q with
  | QTreasuryAddress => c <- components_by A w en ;; Ok (AnTreasury (c_treasury c))
  | QDaoInfo => i <- v2_dao_info w en ;; Ok (AnInfo i)
  | QComponents =>
      x <- enterprise_at A w en ;;
      '(factory, registry, c) <- query_component_contracts x ;;
      Ok (AnComponents factory (Some registry) en (c_funds c) (Some c))
  | QMemberInfo u => n <- v2_member_info w en u ;; Ok (AnMember n)
  | QMultisigMembers s l => r <- v2_multisig_members w en s l ;; Ok (AnMembers r)
  | QAssetWhitelist s l => t <- v2_treasury w en ;; r <- query_asset_whitelist t s l ;; Ok (AnAssets r)
  | QNftWhitelist s l => t <- v2_treasury w en ;; r <- query_nft_whitelist t s l ;; Ok (AnNfts r)
  | QProposal id => v <- v2_proposal w e en id ;; Ok (AnProposal v)
  | QProposals f s l =>
      x <- v2_controller w en ;;
      r <- query_proposals (ctl_oracle_of Out A w) x (e_time e) f s l ;;
      Ok (AnProposals (map map_view r))
  | QProposalStatus id => '(st, ends, results) <- v2_proposal_status w e en id ;; Ok (AnStatus st (AtTime ends) results)
  | QMemberVote m id => v <- v2_member_vote w en m id ;; Ok (AnVote v)
  | QProposalVotes id s l => r <- v2_proposal_votes w en id s l ;; Ok (AnVotes r)
  | QUserStake u s l => r <- v2_user_stake w en u s l ;; Ok (AnStake r)
  | QTotalStaked => n <- v2_total_staked w en ;; Ok (AnTotal n)
  | QStakedNfts s l => r <- v2_staked_nfts w en s l ;; Ok (AnStaked r)
  | QClaims u => r <- v2_claims w en u ;; Ok (AnClaims r)
  | QReleasableClaims u => r <- v2_releasable_claims w e en u ;; Ok (AnClaims r)
  | QTreasuries s l =>
      c <- components_by A w en ;; o <- outposts_at w (c_outposts c) ;; Ok (AnTreasuries (query_treasuries o s l))
  | QHasIncompleteMigration => b <- v2_has_incomplete w en ;; Ok (AnBool b)
  | QHasUnmoved => b <- v2_has_unmoved w en ;; Ok (AnBool b)
  | QMigrationStage => b <- v2_has_incomplete w en ;; Ok (AnStage (if b then StageInProgress else StageCompleted))
  end.

(** cosmwasm-std [coins(amount, denom)] *)
Definition coins (amount denom : N) : list coin := [(denom, amount)].

(** facade_v2.rs:1000-1049 [adapt_execute_proposal] *)
Definition v2_execute (w : world X) (e : env) (en : addr) (id : N) : res (list cosmos_msg) :=
  v <- v2_proposal w e en id ;;
  let n := N.of_nat (length (filter crosses_chains (fp_actions v))) in
  c <- components_by A w en ;;
  let run := WasmExecute (c_controller c) (ToController (CExecuteProposal id)) [] in
  Ok (if negb (n =? 0) then [BankSend (c_outposts c) (coins n ULUNA); run] else [run]).

(** facade_v2.rs:1051-1122 [adapt_stake] *)
Definition v2_stake (w : world X) (en : addr) (r : stake_request) : res (list cosmos_msg) :=
  c <- components_by A w en ;;
  m <- members_at A w (c_membership c) ;;
  match r with
  | StCw20 user amount =>
      '(token, _) <- token_config m ;;
      Ok [WasmExecute token (ToCw20 (Cw20Send (c_membership c) amount (HookMember (HStake user)))) []]
  | StCw721 user tokens =>
      '(nft, _) <- nft_config (x_ics721 Out (w_ext w)) m ;;
      Ok (map (fun t => WasmExecute nft (ToCw721 (Cw721Send (c_membership c) t (NStake user))) []) tokens)
  | StDenom user amount =>
      '(denom, _) <- denom_config m ;;
      Ok [WasmExecute (c_membership c) (ToMembership (DenomMsg (DStake (Some user)))) (coins amount denom)]
  end.

(** facade_v2.rs:1124-1156 [adapt_unstake] *)
Definition v2_unstake (w : world X) (en : addr) (r : unstake_request) : res (list cosmos_msg) :=
  c <- components_by A w en ;;
  Ok [WasmExecute (c_membership c)
        (ToMembership (match r with
                       | UnCw20 n => TokenMsg (TCommon (SUnstake n))
                       | UnCw721 l => NftMsg (NUnstake l)
                       | UnDenom n => DenomMsg (DCommon (SUnstake n))
                       end)) []].

(** facade_v2.rs:1158-1199 [adapt_claim] *)
Definition v2_claim (w : world X) (en : addr) : res (list cosmos_msg) :=
  t <- type_by w en ;;
  m <- (match t with
        | DaoDenom => Ok (DenomMsg (DCommon (SClaim None)))
        | DaoToken => Ok (TokenMsg (TCommon (SClaim None)))
        | DaoNft => Ok (NftMsg (NClaim None))
        | DaoMultisig => Err EUnsupportedOperation
        end) ;;
  c <- components_by A w en ;;
  Ok [WasmExecute (c_membership c) (ToMembership m) []].

(** contract.rs:45-179 [query]: the adapters; facade_v2.rs:763-1199 *)
Definition v2_adapt (w : world X) (e : env) (en : addr) (r : adapt_request) : res (list cosmos_msg) :=
  match r with
  | ACreateProposal actions owner =>
      c <- components_by A w en ;;
      Ok [WasmExecute (c_controller c) (ToController (CCreateProposal actions owner)) []]
  | ACreateWithDenom actions owner amount =>
      t <- type_by w en ;;
      _ <- guard (dao_type_eqb t DaoDenom) EUnsupportedOperation ;;
      c <- components_by A w en ;;
      m <- members_at A w (c_membership c) ;;
      '(denom, _) <- denom_config m ;;
      Ok [WasmExecute (c_controller c) (ToController (CCreateProposal actions owner)) (coins amount denom)]
  | ACreateWithToken actions owner amount =>
      t <- type_by w en ;;
      match t with
      | DaoToken =>
          c <- components_by A w en ;;
          m <- members_at A w (c_membership c) ;;
          '(token, _) <- token_config m ;;
          Ok [WasmExecute token (ToCw20 (Cw20Send (c_controller c) amount (HookProposal actions owner))) []]
      | _ => Err EUnsupportedOperation
      end
  | ACreateWithNfts actions owner tokens =>
      t <- type_by w en ;;
      _ <- guard (dao_type_eqb t DaoNft) EUnsupportedOperation ;;
      c <- components_by A w en ;;
      m <- members_at A w (c_membership c) ;;
      '(nft, _) <- nft_config (x_ics721 Out (w_ext w)) m ;;
      Ok (map (fun t => WasmExecute nft (ToCw721 (Cw721Approve (c_controller c) t)) []) tokens ++
          [WasmExecute (c_controller c) (ToController (CCreateProposalNft actions owner tokens)) []])
  | ACreateCouncil actions owner =>
      c <- components_by A w en ;;
      Ok [WasmExecute (c_controller c) (ToController (CCreateCouncilProposal actions)) []]
  | ACastVote id o =>
      c <- components_by A w en ;; Ok [WasmExecute (c_controller c) (ToController (CCastVote id o)) []]
  | ACastCouncilVote id o =>
      c <- components_by A w en ;; Ok [WasmExecute (c_controller c) (ToController (CCastCouncilVote id o)) []]
  | AExecute id => v2_execute w e en id
  | AStake r => v2_stake w en r
  | AUnstake r => v2_unstake w en r
  | AClaim => v2_claim w en
  end.

(** contracts/enterprise-facade/src/contract.rs:70-450 [query]: find the facade, pass the query on to it with the address
    that it is to use; [old], [new] are the two facades *)
Definition dispatch {T : Type} (old new : addr -> res T) (w : world X) (a : addr) : res T :=
  t <- get_facade w a ;;
  match t with OldDao d => old d | NewDao d => new d end.

End Facade.
