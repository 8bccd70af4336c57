(** Model of contracts/enterprise-governance-controller.

    Paths are relative to contracts/enterprise-governance-controller/src unless they start with another
    directory. Queries to other contracts are fields of [ctl_oracle]; a query never changes state, and the
    handler sends no message before it returns, so all queries of one call see the same state.
    Not modelled: titles and descriptions, response attributes, [query_member_vote] and
    [query_proposal_votes] (they forward to the poll queries of PollModel), [migrate] (it only rewrites the
    contract version). *)
From Verif Require Import Base OMap Assets PollModel MemberModel Msgs.

(** packages/enterprise-governance-controller-api/src/api.rs [ProposalType] *)
Inductive proposal_type := General | Council.
Definition proposal_type_eqb (a b : proposal_type) : bool :=
  match a, b with General, General | Council, Council => true | _, _ => false end.

(** api.rs:110-139 [ProposalDepositAsset], [ProposalDeposit], [amount] *)
Inductive deposit_asset :=
| DDenom (denom amount : N)
| DCw20 (token : addr) (amount : N)
| DCw721 (nft : addr) (tokens : list N).
Record deposit := mk_deposit { dp_depositor : addr; dp_asset : deposit_asset }.
Definition deposit_amount (d : deposit) : N :=
  match dp_asset d with
  | DDenom _ a => a
  | DCw20 _ a => a
  | DCw721 _ ts => N.of_nat (length ts)
  end.

(** api.rs:17-34 [ProposalInfo] *)
Record proposal_info := mk_info {
  pi_type : proposal_type;
  pi_executed_at : option env;
  pi_earliest : option N;
  pi_deposit : option deposit;
  pi_actions : list proposal_action
}.

Definition is_past_earliest (p : proposal_info) (now : N) : bool :=
  match pi_earliest p with Some t => t <=? now | None => true end.

(** state.rs:27-41 [ProposalExecutabilityStatus], 43-64 its conversion *)
Inductive exec_status :=
| XNotExecutable
| XPassed (outcome : N)
| XRejected (veto : bool)
| XDraw (o1 o2 votes : N).

Definition exec_status_of (s : poll_status) : exec_status :=
  match s with
  | InProgress _ => XNotExecutable
  | Passed o _ => XPassed o
  | Rejected QuorumNotReached => XNotExecutable
  | Rejected ThresholdNotReached => XNotExecutable
  | Rejected QuorumAndThresholdNotReached => XNotExecutable
  | Rejected IsRejectingOutcome => XRejected false
  | Rejected IsVetoOutcome => XRejected true
  | Rejected (OutcomeDraw a b c) => XDraw a b c
  end.

Definition exec_status_eqb (a b : exec_status) : bool :=
  match a, b with
  | XNotExecutable, XNotExecutable => true
  | XPassed o, XPassed o' => o =? o'
  | XRejected v, XRejected v' => Bool.eqb v v'
  | XDraw a b c, XDraw a' b' c' => (a =? a') && (b =? b') && (c =? c')
  | _, _ => false
  end.

(** state.rs:14-25 [State], 66-81 (contract storage). [ct_treasuries]: [None] once removed. *)
Record ctl := mk_ctl {
  ct_enterprise : addr;
  ct_config : gov_config;
  ct_council : option council_config;
  ct_proposals : omap proposal_info;
  ct_creation : N;
  ct_treasuries : option (list deploy_spec);
  ct_creating : option proposal_info;
  ct_executing : option N;
  ct_voting : option (N * exec_status)
}.

Definition with_config (s : ctl) (g : gov_config) : ctl :=
  mk_ctl (ct_enterprise s) g (ct_council s) (ct_proposals s) (ct_creation s) (ct_treasuries s)
         (ct_creating s) (ct_executing s) (ct_voting s).
Definition with_council (s : ctl) (c : option council_config) : ctl :=
  mk_ctl (ct_enterprise s) (ct_config s) c (ct_proposals s) (ct_creation s) (ct_treasuries s)
         (ct_creating s) (ct_executing s) (ct_voting s).
Definition with_proposals (s : ctl) (p : omap proposal_info) : ctl :=
  mk_ctl (ct_enterprise s) (ct_config s) (ct_council s) p (ct_creation s) (ct_treasuries s)
         (ct_creating s) (ct_executing s) (ct_voting s).
Definition with_treasuries (s : ctl) (t : option (list deploy_spec)) : ctl :=
  mk_ctl (ct_enterprise s) (ct_config s) (ct_council s) (ct_proposals s) (ct_creation s) t
         (ct_creating s) (ct_executing s) (ct_voting s).
Definition with_creating (s : ctl) (p : option proposal_info) : ctl :=
  mk_ctl (ct_enterprise s) (ct_config s) (ct_council s) (ct_proposals s) (ct_creation s) (ct_treasuries s)
         p (ct_executing s) (ct_voting s).
Definition with_executing (s : ctl) (x : option N) : ctl :=
  mk_ctl (ct_enterprise s) (ct_config s) (ct_council s) (ct_proposals s) (ct_creation s) (ct_treasuries s)
         (ct_creating s) x (ct_voting s).
Definition with_voting (s : ctl) (x : option (N * exec_status)) : ctl :=
  mk_ctl (ct_enterprise s) (ct_config s) (ct_council s) (ct_proposals s) (ct_creation s) (ct_treasuries s)
         (ct_creating s) (ct_executing s) x.

(** What the other contracts answer. The enterprise contract: type, version, components, restriction.
    A membership contract (by address): weight of a user, total weight, its configuration. The governance
    contract (by address): poll, simulated final status with the poll's end, listing. A cw721 contract: owner
    and approvals of a token. The chain: creator of this contract. *)
Record ctl_oracle := mk_ctl_oracle {
  co_dao_type : res dao_type;
  co_dao_version : res N;
  co_components : res components;
  co_restricted : N -> res bool;
  co_weight : addr -> N -> res N;
  co_total : addr -> expiration -> res N;
  co_token_config : addr -> res addr;
  co_denom_config : addr -> res N;
  co_nft_config : addr -> res addr;
  co_poll : addr -> N -> res poll;
  co_simulate : addr -> N -> N -> res (poll_status * N);
  co_polls : addr -> option status_filter -> option N -> N -> res (list poll);
  co_nft_owner : addr -> N -> res (N * list N);
  co_creator : res N
}.

(** contract.rs:2063-2069 [unrestricted_users_only] *)
Definition unrestricted (o : ctl_oracle) (u : N) : res unit :=
  r <- co_restricted o u ;; guard (negb r) ERestricted.

(** contract.rs:1923-1934 [get_user_available_votes] *)
Definition user_votes (o : ctl_oracle) (u : addr) : res N :=
  c <- co_components o ;; co_weight o (c_membership c) u.

(** contract.rs:2025-2034 [query_council_member_weight] *)
Definition council_weight (o : ctl_oracle) (u : addr) : res N :=
  c <- co_components o ;; co_weight o (c_council c) u.

(** contract.rs:1837-1846 [total_available_votes], 1866-1877 [general_total_available_votes], 2036-2050 [query_council_total_weight] *)
Definition total_available (o : ctl_oracle) (x : expiration) (t : proposal_type) : res N :=
  c <- co_components o ;;
  co_total o (match t with General => c_membership c | Council => c_council c end) x.

(** contract.rs:1849-1864 [simulate_end_proposal_status] *)
Definition simulate (o : ctl_oracle) (id max : N) : res (poll_status * N) :=
  c <- co_components o ;; co_simulate o (c_governance c) id max.

(** contract.rs:1591-1599 [query_poll], 1673-1684 [query_poll_status] (the same poll) *)
Definition ctl_poll (o : ctl_oracle) (id : N) : res poll :=
  c <- co_components o ;; co_poll o (c_governance c) id.

(** * validate.rs *)

Definition MAXIMUM_PROPOSAL_ACTIONS : nat := 10.

(** validate.rs:86-94 [validate_gt_zero_lte_one] *)
Definition validate_ratio (v : N) : res unit := guard (negb ((DEC <? v) || (v =? 0))) EInvalidGovConfig.

(** validate.rs:37-63 [validate_dao_gov_config] *)
Definition validate_gov_config (t : dao_type) (g : gov_config) : res unit :=
  _ <- guard (negb (gc_vote_duration g =? 0)) EInvalidGovConfig ;;
  _ <- validate_ratio (gc_quorum g) ;;
  _ <- validate_ratio (gc_threshold g) ;;
  _ <- (match gc_veto_threshold g with
        | Some v => guard (negb ((DEC <? v) || (v =? 0))) EInvalidGovConfig
        | None => Ok tt
        end) ;;
  guard (negb (is_some (gc_minimum_deposit g) && dao_type_eqb t DaoMultisig)) EInvalidGovConfig.

(** validate.rs:65-75 [validate_unlocking_period] *)
Definition validate_unlocking (g : gov_config) (d : duration) : res unit :=
  match d with
  | DTime t => guard (negb (t <? gc_vote_duration g)) EVoteDurationLongerThanUnstaking
  | DHeight _ => Ok tt
  end.

(** validate.rs:147-175 [apply_gov_config_changes] *)
Definition apply_config (g : gov_config) (u : gov_config_update) : gov_config :=
  mk_gov_config (apply_change (gc_quorum g) (gu_quorum u))
                (apply_change (gc_threshold g) (gu_threshold u))
                (apply_change (gc_veto_threshold g) (gu_veto_threshold u))
                (apply_change (gc_vote_duration g) (gu_vote_duration u))
                (apply_change (gc_minimum_deposit g) (gu_minimum_deposit u))
                (apply_change (gc_allow_early g) (gu_allow_early u)).

(** [AssetInfoUnchecked::check(api, None)] *)
Definition check_asset (a : asset) : res asset :=
  match a with
  | Native _ => Ok a
  | Cw20 t => _ <- addr_validate t ;; Ok a
  | Cw1155 t _ => _ <- addr_validate t ;; Ok a
  end.

Fixpoint nodup_assets (l : list asset) : bool :=
  match l with
  | [] => true
  | a :: t => negb (asset_in a t) && nodup_assets t
  end.

(** validate.rs:243-288 [split_asset_hashsets]: addresses valid, no duplicates (which error comes first when
    both fail is not kept) *)
Definition validate_asset_list (l : list asset) : res unit :=
  _ <- map_res check_asset l ;; guard (nodup_assets l) EInvalidArgument.

(** validate.rs:201-241 [validate_asset_whitelist_changes] *)
Definition validate_assets (target : option cross_spec) (add remove : list asset) : res unit :=
  match target with
  | Some _ => Ok tt
  | None =>
      _ <- validate_asset_list add ;;
      _ <- validate_asset_list remove ;;
      guard (negb (existsb (fun a => asset_in a remove) add)) EInvalidArgument
  end.

(** validate.rs:296-326 [validate_nft_whitelist_changes] *)
Definition validate_nfts (add remove : list N) : res unit :=
  _ <- map_res addr_validate add ;;
  _ <- guard (nodupb add) EInvalidArgument ;;
  _ <- map_res addr_validate remove ;;
  _ <- guard (nodupb remove) EInvalidArgument ;;
  guard (negb (existsb (fun a => existsb (N.eqb a) remove) add)) EInvalidArgument.

(** validate.rs:328-343 [validate_upgrade_dao] *)
Definition validate_upgrade (o : ctl_oracle) (v : N) : res unit :=
  cur <- co_dao_version o ;; guard (negb (v <=? cur)) EMigratingToLowerVersion.

(** validate.rs:366-391 [validate_modify_multisig_membership] *)
Definition validate_multisig (t : dao_type) (edits : list (N * N)) : res unit :=
  _ <- guard (dao_type_eqb t DaoMultisig) EUnsupportedOperation ;;
  _ <- map_res (fun uw => addr_validate (fst uw)) edits ;;
  guard (nodupb (map fst edits)) EDuplicateUser.

(** validate.rs:487-520 [validate_allowed_council_proposal_types] *)
Definition council_may (t : action_type) : bool :=
  match t with
  | TUpdateGovConfig | TUpdateCouncil | TRequestFunding | TExecuteMsgs | TExecuteTreasuryMsgs
  | TExecuteEnterpriseMsgs | TModifyMultisig | TDistributeFunds | TUpdateMinimumWeight => false
  | TUpdateMetadata | TUpdateAssetWhitelist | TUpdateNftWhitelist | TUpgradeDao | TDeployTreasury => true
  end.

(** validate.rs:393-417 [validate_dao_council], 465-483 *)
Definition validate_council (c : option council_spec) : res (option council_config) :=
  match c with
  | None => Ok None
  | Some c =>
      _ <- map_res addr_validate (cs_members c) ;;
      _ <- guard (nodupb (cs_members c)) EDuplicateUser ;;
      _ <- guard (forallb council_may (dflt [] (cs_allowed c))) EUnsupportedCouncilAction ;;
      _ <- validate_ratio (cs_quorum c) ;;
      _ <- validate_ratio (cs_threshold c) ;;
      Ok (Some (mk_council_config (dflt [TUpgradeDao] (cs_allowed c)) (cs_quorum c) (cs_threshold c)))
  end.

(** validate.rs:419-441 [validate_distribute_funds] *)
Definition validate_distribute_one (am : asset * N) : res unit :=
  match fst am with
  | Native _ => Ok tt
  | Cw20 a => _ <- addr_validate a ;; Ok tt
  | Cw1155 _ _ => Err EStd
  end.

(** validate.rs:443-463 [validate_request_funding_from_dao] *)
Definition validate_funding_one (am : asset * N) : res unit :=
  a <- check_asset (fst am) ;;
  match a with Cw1155 _ _ => Err EUnsupportedAsset | _ => Ok tt end.

(** validate.rs:96-145 [validate_proposal_actions], one action *)
Definition validate_action (o : ctl_oracle) (s : ctl) (t : dao_type) (a : proposal_action) : res unit :=
  match a with
  | PUpdateAssets target add remove => validate_assets target add remove
  | PUpdateNfts _ add remove => validate_nfts add remove
  | PUpgradeDao v _ => validate_upgrade o v
  | PExecuteMsgs msgs => _ <- parse_msgs msgs ;; Ok tt
  | PExecuteTreasuryMsgs msgs _ => _ <- parse_msgs msgs ;; Ok tt
  | PExecuteEnterpriseMsgs msgs => _ <- parse_msgs msgs ;; Ok tt
  | PModifyMultisig edits => validate_multisig t edits
  | PUpdateCouncil c => _ <- validate_council c ;; Ok tt
  | PDistributeFunds funds => _ <- map_res validate_distribute_one funds ;; Ok tt
  | PRequestFunding None to assets =>
      _ <- addr_validate to ;; _ <- map_res validate_funding_one assets ;; Ok tt
  | PRequestFunding (Some _) _ _ => Ok tt
  | PUpdateGovConfig u => validate_gov_config t (apply_config (ct_config s) u)
  | PUpdateMetadata _ | PUpdateMinimumWeight _ | PDeployTreasury _ => Ok tt
  end.

Definition validate_actions (o : ctl_oracle) (s : ctl) (t : dao_type) (l : list proposal_action) : res unit :=
  _ <- guard (Nat.leb (length l) MAXIMUM_PROPOSAL_ACTIONS) EMaxActions ;;
  _ <- map_res (validate_action o s t) l ;; Ok tt.

(** * Instantiation *)

(** contract.rs:115-153 [instantiate]; [infos]: proposals carried over by a migration *)
Definition ctl_instantiate (e : env) (enterprise : N) (t : dao_type) (g : gov_config) (council : option council_spec)
    (infos : list (N * proposal_info)) (treasuries : option (list deploy_spec)) : res ctl :=
  en <- addr_validate enterprise ;;
  _ <- validate_gov_config t g ;;
  cc <- validate_council council ;;
  Ok (mk_ctl en g cc (fold_left (fun m kv => oset m (fst kv) (snd kv)) infos oempty) (e_time e)
             (Some (dflt [] treasuries)) None None None).

(** * Creating proposals *)

(** contract.rs:368-394 [assert_sufficient_deposit_or_member] *)
Definition sufficient_deposit (g : gov_config) (d : option deposit) (weight : N) : res unit :=
  match gc_minimum_deposit g with
  | None => guard (negb (weight =? 0)) ENoVotingPower
  | Some required =>
      guard (required <=? match d with Some d => deposit_amount d | None => 0 end) EInsufficientDeposit
  end.

(** contract.rs:480-526 [create_poll] *)
Definition new_poll_msg (o : ctl_oracle) (s : ctl) (e : env) (g : gov_config) (actions : list proposal_action)
    (d : option deposit) (t : proposal_type) (proposer : addr) : res (ctl * list sub_msg) :=
  ends_at <- ts_plus_seconds (e_time e) (gc_vote_duration g) ;;
  c <- co_components o ;;
  Ok (with_creating s (Some (mk_info t None None d actions)),
      [mk_sub (WasmExecute (c_governance c)
                 (ToGovernance (GCreatePoll (mk_create proposer 0 ends_at (gc_quorum g) (gc_threshold g)
                                                       (gc_veto_threshold g)))) [])
              (ReplySuccess 1)]).

(** contract.rs:334-366 [create_proposal] *)
Definition create_proposal (o : ctl_oracle) (s : ctl) (e : env) (actions : list proposal_action)
    (d : option deposit) (proposer : addr) : res (ctl * list sub_msg) :=
  _ <- unrestricted o proposer ;;
  w <- user_votes o proposer ;;
  _ <- sufficient_deposit (ct_config s) d w ;;
  t <- co_dao_type o ;;
  _ <- validate_actions o s t actions ;;
  new_poll_msg o s e (ct_config s) actions d General proposer.

Definition deposit_owner (owner : option N) (proposer : addr) : res addr :=
  match owner with Some a => addr_validate a | None => Ok proposer end.

(** contract.rs:179-217 [determine_deposit_and_create_proposal] *)
Definition create_proposal_coins (o : ctl_oracle) (s : ctl) (e : env) (sender : addr) (coins : list coin)
    (actions : list proposal_action) (owner : option N) : res (ctl * list sub_msg) :=
  t <- co_dao_type o ;;
  d <- (match t with
        | DaoDenom =>
            c <- co_components o ;;
            denom <- co_denom_config o (c_membership c) ;;
            depositor <- deposit_owner owner sender ;;
            Ok (match find (fun x : coin => fst x =? denom) coins with
                | Some (dn, a) => Some (mk_deposit depositor (DDenom dn a))
                | None => None
                end)
        | _ => Ok None
        end) ;;
  create_proposal o s e actions d sender.

(** contract.rs:297-332 [can_deposit_nft], [has_nft_approval]: the scan stops at the first match *)
Fixpoint has_approval (user : addr) (l : list N) : res bool :=
  match l with
  | [] => Ok false
  | a :: t => a <- addr_validate a ;; if a =? user then Ok true else has_approval user t
  end.

Definition can_deposit_nft (o : ctl_oracle) (nft : addr) (proposer : addr) (token : N) : res bool :=
  '(owner, approvals) <- co_nft_owner o nft token ;;
  owner <- addr_validate owner ;;
  if owner =? proposer then Ok true else has_approval proposer approvals.

Definition take_nft (o : ctl_oracle) (self : addr) (nft : addr) (proposer : addr) (token : N) : res sub_msg :=
  ok <- can_deposit_nft o nft proposer token ;;
  _ <- guard ok EUnauthorized ;;
  Ok (plain (WasmExecute nft (ToCw721 (Cw721Transfer self token)) [])).

(** contract.rs:219-282 [create_proposal_with_nft_deposit] *)
Definition create_proposal_nft (o : ctl_oracle) (self : addr) (s : ctl) (e : env) (sender : addr)
    (actions : list proposal_action) (owner : option N) (tokens : list N) : res (ctl * list sub_msg) :=
  t <- co_dao_type o ;;
  _ <- guard (dao_type_eqb t DaoNft) EUnsupportedOperation ;;
  _ <- guard (nodupb tokens) EDuplicateNft ;;
  c <- co_components o ;;
  nft <- co_nft_config o (c_membership c) ;;
  takes <- map_res (take_nft o self nft sender) tokens ;;
  depositor <- deposit_owner owner sender ;;
  '(s, msgs) <- create_proposal o s e actions (Some (mk_deposit depositor (DCw721 nft tokens))) sender ;;
  Ok (s, msgs ++ takes).

(** contract.rs:1252-1287 [receive_cw20] *)
Definition create_proposal_cw20 (o : ctl_oracle) (s : ctl) (e : env) (sender : addr) (from amount : N)
    (actions : list proposal_action) (owner : option N) : res (ctl * list sub_msg) :=
  t <- co_dao_type o ;;
  c <- co_components o ;;
  token <- co_token_config o (c_membership c) ;;
  _ <- guard (dao_type_eqb t DaoToken && (sender =? token)) EInvalidDepositType ;;
  from <- addr_validate from ;;
  depositor <- deposit_owner owner from ;;
  create_proposal o s e actions (Some (mk_deposit depositor (DCw20 token amount))) from.

(** contract.rs:396-459 [create_council_proposal] *)
Definition create_council_proposal (o : ctl_oracle) (s : ctl) (e : env) (sender : addr)
    (actions : list proposal_action) : res (ctl * list sub_msg) :=
  _ <- unrestricted o sender ;;
  cc <- ok_or (ct_council s) ENoDaoCouncil ;;
  t <- co_dao_type o ;;
  _ <- validate_actions o s t actions ;;
  w <- council_weight o sender ;;
  _ <- guard (negb (w =? 0)) EUnauthorized ;;
  _ <- guard (forallb (fun a => existsb (action_type_eqb (action_type_of a)) (cc_allowed cc)) actions)
             EUnsupportedCouncilAction ;;
  let g := ct_config s in
  new_poll_msg o s e
    (mk_gov_config (cc_quorum cc) (cc_threshold cc) (gc_veto_threshold g) (gc_vote_duration g)
                   (gc_minimum_deposit g) (gc_allow_early g))
    actions None Council sender.

(** * Voting *)

(** contract.rs:528-589 [cast_vote] *)
Definition ctl_cast_vote (o : ctl_oracle) (s : ctl) (sender : addr) (id : N) (out : outcome) : res (ctl * list sub_msg) :=
  _ <- unrestricted o sender ;;
  w <- user_votes o sender ;;
  _ <- guard (negb (w =? 0)) EUnauthorized ;;
  p <- ok_or (oget (ct_proposals s) id) ENoSuchProposal ;;
  _ <- guard (proposal_type_eqb (pi_type p) General) EWrongProposalType ;;
  c <- co_components o ;;
  total <- total_available o Never (pi_type p) ;;
  '(st, _) <- simulate o id total ;;
  Ok (with_voting s (Some (id, exec_status_of st)),
      [mk_sub (WasmExecute (c_governance c) (ToGovernance (GCastVote id out sender w)) []) (ReplySuccess 4)]).

(** contract.rs:591-641 [cast_council_vote] *)
Definition ctl_cast_council_vote (o : ctl_oracle) (s : ctl) (sender : addr) (id : N) (out : outcome)
    : res (ctl * list sub_msg) :=
  _ <- unrestricted o sender ;;
  _ <- ok_or (ct_council s) ENoDaoCouncil ;;
  w <- council_weight o sender ;;
  _ <- guard (negb (w =? 0)) EUnauthorized ;;
  p <- ok_or (oget (ct_proposals s) id) ENoSuchProposal ;;
  _ <- guard (proposal_type_eqb (pi_type p) Council) EWrongProposalType ;;
  c <- co_components o ;;
  Ok (s, [plain (WasmExecute (c_governance c) (ToGovernance (GCastVote id out sender w)) [])]).

(** * Ending and executing *)

(** contract.rs:772-784 [allows_early_ending] *)
Definition allows_early (s : ctl) (t : proposal_type) : bool :=
  match t with General => gc_allow_early (ct_config s) | Council => true end.

(** contract.rs:724-770 [end_proposal] *)
Definition end_proposal (o : ctl_oracle) (s : ctl) (e : env) (id : N) (t : proposal_type) : res (ctl * list sub_msg) :=
  p <- ctl_poll o id ;;
  total <- total_available o (if p_ends_at p <=? e_time e then AtTime (p_ends_at p) else Never) t ;;
  _ <- guard (negb (total =? 0)) ENoVotesAvailable ;;
  c <- co_components o ;;
  Ok (with_executing s (Some id),
      [mk_sub (WasmExecute (c_governance c) (ToGovernance (GEndPoll id total false (allows_early s t))) [])
              (ReplySuccess 2)]).

(** contract.rs:643-673 [execute_proposal] *)
Definition execute_proposal (o : ctl_oracle) (s : ctl) (e : env) (sender : addr) (id : N) : res (ctl * list sub_msg) :=
  _ <- unrestricted o sender ;;
  p <- ok_or (oget (ct_proposals s) id) ENoSuchProposal ;;
  _ <- guard (negb (is_some (pi_executed_at p))) EAlreadyExecuted ;;
  _ <- (match pi_earliest p with
        | Some t => guard (negb (e_time e <? t)) ECannotExecuteYet
        | None => Ok tt
        end) ;;
  end_proposal o s e id (pi_type p).

(** contract.rs:690-722 [send_proposal_deposit_to] *)
Definition send_deposit (a : deposit_asset) (to : addr) : list sub_msg :=
  match a with
  | DDenom d n => [plain (BankSend to [(d, n)])]
  | DCw20 t n => [plain (WasmExecute t (ToCw20 (Cw20Transfer to n)) [])]
  | DCw721 c ts => map (fun t => plain (WasmExecute c (ToCw721 (Cw721Transfer to t)) [])) ts
  end.

(** contract.rs:675-688 [return_proposal_deposit_submsgs] *)
Definition return_deposit (p : proposal_info) : list sub_msg :=
  match pi_deposit p with Some d => send_deposit (dp_asset d) (dp_depositor d) | None => [] end.

(** proposals.rs:9-27 [set_proposal_executed] *)
Definition set_executed (s : ctl) (e : env) (id : N) (p : proposal_info) : ctl :=
  with_proposals s (oset (ct_proposals s) id
    (mk_info (pi_type p) (Some e) (pi_earliest p) (pi_deposit p) (pi_actions p))).

(** contract.rs:786-844 [resolve_ended_proposal] *)
Definition resolve_ended (o : ctl_oracle) (self : addr) (s : ctl) (e : env) (id : N) : res (ctl * list sub_msg) :=
  pl <- ctl_poll o id ;;
  match p_status pl with
  | InProgress _ => Err EPollInProgress
  | Passed _ _ =>
      p <- ok_or (oget (ct_proposals s) id) ENoSuchProposal ;;
      Ok (set_executed s e id p,
          mk_sub (WasmExecute self (ToController (CExecuteActions id)) []) (ReplyAlways 3) :: return_deposit p)
  | Rejected reason =>
      p <- ok_or (oget (ct_proposals s) id) ENoSuchProposal ;;
      msgs <- (match pi_type p with
               | General =>
                   match reason with
                   | QuorumNotReached | IsVetoOutcome =>
                       match pi_deposit p with
                       | Some d => c <- co_components o ;; Ok (send_deposit (dp_asset d) (c_treasury c))
                       | None => Ok []
                       end
                   | _ => Ok (return_deposit p)
                   end
               | Council => Ok []
               end) ;;
      Ok (set_executed s e id p, msgs)
  end.

(** * Actions *)

(** contract.rs:1045-1075 [execute_treasury_msg] *)
Definition to_treasury (o : ctl_oracle) (m : treasury_msg) (target : option cross_spec) : res sub_msg :=
  c <- co_components o ;;
  Ok (plain (match target with
             | Some x => WasmExecute (c_outposts c) (ToOutposts (OpExecute m x)) []
             | None => WasmExecute (c_treasury c) (ToTreasury m) []
             end)).

(** contract.rs:928-982 [update_gov_config] *)
Definition act_gov_config (o : ctl_oracle) (s : ctl) (u : gov_config_update) : res (ctl * list sub_msg) :=
  let g := apply_config (ct_config s) u in
  t <- co_dao_type o ;;
  _ <- validate_gov_config t g ;;
  c <- co_components o ;;
  msgs <- (match gu_unlocking_period u with
           | Change d =>
               _ <- validate_unlocking g d ;;
               let to m := [plain (WasmExecute (c_membership c) (ToMembership m) [])] in
               Ok (match t with
                   | DaoDenom => to (DenomMsg (DCommon (SUpdatePeriod (Some d))))
                   | DaoToken => to (TokenMsg (TCommon (SUpdatePeriod (Some d))))
                   | DaoNft => to (NftMsg (NUpdatePeriod (Some d)))
                   | DaoMultisig => []
                   end)
           | NoChange => Ok []
           end) ;;
  Ok (with_config s g, msgs).

(** contract.rs:984-1012 [update_council] *)
Definition act_council (o : ctl_oracle) (s : ctl) (spec : option council_spec) : res (ctl * list sub_msg) :=
  cc <- validate_council spec ;;
  c <- co_components o ;;
  let members := map (fun m => (m, 1)) (match spec with Some x => cs_members x | None => [] end) in
  Ok (with_council s cc,
      [plain (WasmExecute (c_council c) (ToMembership (MultisigMsg (MSetMembers members))) [])]).

(** contract.rs:863-895 [execute_proposal_actions_submsgs], one action; the actions: 897-1207 *)
Definition run_action (o : ctl_oracle) (s : ctl) (a : proposal_action) : res (ctl * list sub_msg) :=
  let enterprise m := Ok (s, [plain (WasmExecute (ct_enterprise s) (ToEnterprise m) [])]) in
  match a with
  | PUpdateMetadata u => enterprise (EnUpdateMetadata u)
  | PUpdateGovConfig u => act_gov_config o s u
  | PUpdateCouncil c => act_council o s c
  | PRequestFunding target to assets => m <- to_treasury o (TrSpend to assets) target ;; Ok (s, [m])
  | PUpdateAssets target add remove => m <- to_treasury o (TrUpdateAssets add remove) target ;; Ok (s, [m])
  | PUpdateNfts target add remove => m <- to_treasury o (TrUpdateNfts add remove) target ;; Ok (s, [m])
  | PUpgradeDao v msgs => _ <- validate_upgrade o v ;; enterprise (EnUpgradeDao v msgs)
  | PExecuteMsgs msgs => ms <- parse_msgs msgs ;; Ok (s, map plain ms)
  | PExecuteTreasuryMsgs msgs target => m <- to_treasury o (TrExecute msgs) target ;; Ok (s, [m])
  | PExecuteEnterpriseMsgs msgs => enterprise (EnExecuteMsgs msgs)
  | PModifyMultisig edits =>
      t <- co_dao_type o ;;
      _ <- validate_multisig t edits ;;
      c <- co_components o ;;
      Ok (s, [plain (WasmExecute (c_membership c) (ToMembership (MultisigMsg (MUpdateMembers edits))) [])])
  | PDistributeFunds funds =>
      c <- co_components o ;;
      Ok (s, [plain (WasmExecute (c_treasury c) (ToTreasury (TrDistribute funds (c_funds c))) [])])
  | PUpdateMinimumWeight w =>
      c <- co_components o ;;
      Ok (s, [plain (WasmExecute (c_funds c) (ToFunds (FundsModel.FUpdateMinimum w)) [])])
  | PDeployTreasury d =>
      c <- co_components o ;;
      Ok (s, [plain (WasmExecute (c_outposts c) (ToOutposts (OpDeploy d)) [])])
  end.

Definition run_action_acc (o : ctl_oracle) (acc : ctl * list sub_msg) (a : proposal_action) : res (ctl * list sub_msg) :=
  '(s, msgs) <- run_action o (fst acc) a ;; Ok (s, snd acc ++ msgs).

(** contract.rs:846-861 [execute_proposal_actions] *)
Definition execute_actions (o : ctl_oracle) (self : addr) (s : ctl) (sender : addr) (id : N) : res (ctl * list sub_msg) :=
  _ <- guard (sender =? self) EUnauthorized ;;
  p <- ok_or (oget (ct_proposals s) id) ENoSuchProposal ;;
  fold_res (run_action_acc o) (s, []) (pi_actions p).

(** contract.rs:1209-1250 [execute_deploy_initial_cross_chain_treasuries] *)
Definition deploy_initial (o : ctl_oracle) (s : ctl) (e : env) (sender : addr) : res (ctl * list sub_msg) :=
  _ <- guard (ct_creation s =? e_time e) EUnauthorized ;;
  creator <- co_creator o ;;
  creator <- addr_validate creator ;;
  _ <- guard (creator =? sender) EUnauthorized ;;
  let l := dflt [] (ct_treasuries s) in
  let s := with_treasuries s None in
  match l with
  | [] => Ok (s, [])
  | _ =>
      c <- co_components o ;;
      Ok (s, map (fun d => plain (WasmExecute (c_outposts c) (ToOutposts (OpDeploy d)) [])) l)
  end.

(** contract.rs:1293-1335 [weights_changed], 1337-1357 [update_user_votes] *)
Definition weights_changed (o : ctl_oracle) (s : ctl) (sender : addr) (changes : list weight_change)
    : res (ctl * list sub_msg) :=
  c <- co_components o ;;
  if sender =? c_council c then Ok (s, [])
  else
    _ <- guard (sender =? c_membership c) EUnauthorized ;;
    Ok (s, map (fun ch => plain (WasmExecute (c_governance c)
                                   (ToGovernance (GUpdateVotes (wc_user ch) (wc_new ch))) [])) changes
           ++ [plain (WasmExecute (c_funds c)
                        (ToFunds (FundsModel.FUpdateUserWeights (map (fun ch => (wc_user ch, wc_new ch)) changes))) [])]).

(** contract.rs:156-177 [execute] *)
Definition ctl_execute (o : ctl_oracle) (self : addr) (s : ctl) (e : env) (sender : addr) (coins : list coin)
    (m : controller_msg) : res (ctl * list sub_msg) :=
  match m with
  | CCreateProposal actions owner => create_proposal_coins o s e sender coins actions owner
  | CCreateProposalNft actions owner tokens => create_proposal_nft o self s e sender actions owner tokens
  | CCreateCouncilProposal actions => create_council_proposal o s e sender actions
  | CCastVote id out => ctl_cast_vote o s sender id out
  | CCastCouncilVote id out => ctl_cast_council_vote o s sender id out
  | CExecuteProposal id => execute_proposal o s e sender id
  | CReceive from amount (Some (actions, owner)) => create_proposal_cw20 o s e sender from amount actions owner
  | CReceive _ _ None => Err EStd
  | CWeightsChanged changes => weights_changed o s sender changes
  | CExecuteActions id => execute_actions o self s sender id
  | CDeployInitial => deploy_initial o s e sender
  end.

(** * Replies *)

(** contract.rs:1407-1481 ([CAST_VOTE_REPLY_ID]) *)
Definition reply_cast_vote (o : ctl_oracle) (s : ctl) (e : env) : res (ctl * list sub_msg) :=
  '(id, old) <- ok_or (ct_voting s) EInvalidState ;;
  let s := with_voting s None in
  if negb (gc_allow_early (ct_config s)) then Ok (s, [])
  else
    t <- co_dao_type o ;;
    if dao_type_eqb t DaoMultisig then Ok (s, [])
    else
      p <- ok_or (oget (ct_proposals s) id) ENotFound ;;
      if proposal_type_eqb (pi_type p) Council then Ok (s, [])
      else
        total <- total_available o Never (pi_type p) ;;
        '(st, ends_at) <- simulate o id total ;;
        if exec_status_eqb (exec_status_of st) old then Ok (s, [])
        else
          earliest <- ts_plus_seconds (e_time e) (gc_vote_duration (ct_config s) / 10) ;;
          Ok (with_proposals s (oset (ct_proposals s) id
                (mk_info (pi_type p) (pi_executed_at p) (Some (N.min earliest ends_at)) (pi_deposit p) (pi_actions p))), []).

(** contract.rs:1360-1503 [reply], 1505-1538 [parse_poll_id] *)
Definition ctl_reply (o : ctl_oracle) (self : addr) (s : ctl) (e : env) (id : N) (r : reply_result) : res (ctl * list sub_msg) :=
  if id =? 1 then
    pid <- (match r with ROk d => ok_or d EStd | RErr => Err EStd end) ;;
    p <- ok_or (ct_creating s) EInvalidState ;;
    Ok (with_proposals (with_creating s None) (oset (ct_proposals s) pid p), [])
  else if id =? 2 then
    pid <- ok_or (ct_executing s) EInvalidState ;;
    resolve_ended o self (with_executing s None) e pid
  else if id =? 3 then Ok (s, [])
  else if id =? 4 then reply_cast_vote o s e
  else Err EUnknownReply.

(** * Queries *)

(** packages/enterprise-governance-controller-api/src/api.rs [ProposalStatus] *)
Inductive proposal_status := PSInProgress | PSCanExecuteEarly | PSPassed | PSRejected | PSExecuted.

(** contract.rs:1818-1835 [determine_final_status_of_ended_poll] *)
Definition final_proposal_status (o : ctl_oracle) (ended_at id : N) (t : proposal_type) : res proposal_status :=
  total <- total_available o (AtTime ended_at) t ;;
  '(st, _) <- simulate o id total ;;
  match st with
  | InProgress _ => Err EStd
  | Passed _ _ => Ok PSPassed
  | Rejected _ => Ok PSRejected
  end.

(** contract.rs:1757-1816 [fix_poll_status] *)
Definition fix_poll_status (o : ctl_oracle) (s : ctl) (id : N) (st : poll_status) (now : N) (p : proposal_info)
    : res proposal_status :=
  if is_some (pi_executed_at p) then Ok PSExecuted
  else match st with
       | InProgress ends_at =>
           if ends_at <=? now then final_proposal_status o ends_at id (pi_type p)
           else if allows_early s (pi_type p) && is_past_earliest p now then
             total <- total_available o Never (pi_type p) ;;
             '(sim, _) <- simulate o id total ;;
             Ok (match sim with
                 | InProgress _ => PSInProgress
                 | Passed _ _ => PSCanExecuteEarly
                 | Rejected IsRejectingOutcome | Rejected IsVetoOutcome => PSCanExecuteEarly
                 | Rejected _ => PSInProgress
                 end)
           else Ok PSInProgress
       | Passed _ _ => Ok PSPassed
       | Rejected _ => Ok PSRejected
       end.

(** contract.rs:1648-1671 [query_proposal_status]: status and end *)
Definition query_proposal_status (o : ctl_oracle) (s : ctl) (now id : N) : res (proposal_status * N) :=
  pl <- ctl_poll o id ;;
  p <- ok_or (oget (ct_proposals s) id) ENoSuchProposal ;;
  st <- fix_poll_status o s id (p_status pl) now p ;;
  Ok (st, p_ends_at pl).

(** The part of [ProposalResponse] that is computed here. *)
Record proposal_view := mk_view {
  vw_id : N;
  vw_type : proposal_type;
  vw_status : proposal_status;
  vw_expires : N;
  vw_actions : list proposal_action;
  vw_results : omap N;
  vw_total : N
}.

(** contract.rs:1686-1752 [poll_to_proposal_response]; polls always expire at a time *)
Definition to_view (o : ctl_oracle) (s : ctl) (now : N) (pl : poll) : res proposal_view :=
  p <- ok_or (oget (ct_proposals s) (p_id pl)) ENoSuchProposal ;;
  st <- fix_poll_status o s (p_id pl) (p_status pl) now p ;;
  total <- total_available o (match pi_executed_at p with
                              | Some b => AtTime (N.min (p_ends_at pl) (e_time b))
                              | None => if p_ends_at pl <=? now then AtTime (p_ends_at pl) else Never
                              end) (pi_type p) ;;
  Ok (mk_view (p_id pl) (pi_type p) st (p_ends_at pl) (pi_actions p) (p_results pl) total).

(** contract.rs:1580-1590 [query_proposal] *)
Definition query_proposal (o : ctl_oracle) (s : ctl) (now id : N) : res proposal_view :=
  pl <- ctl_poll o id ;; to_view o s now pl.

(** contract.rs:1601-1646 [query_proposals]: polls without a proposal here are left out *)
Fixpoint to_views (o : ctl_oracle) (s : ctl) (now : N) (l : list poll) : res (list proposal_view) :=
  match l with
  | [] => Ok []
  | pl :: t =>
      match to_view o s now pl with
      | Err ENoSuchProposal => to_views o s now t
      | Err x => Err x
      | Ok v => vs <- to_views o s now t ;; Ok (v :: vs)
      end
  end.

Definition query_proposals (o : ctl_oracle) (s : ctl) (now : N) (filt : option status_filter)
    (start_after limit : option N) : res (list proposal_view) :=
  c <- co_components o ;;
  pls <- co_polls o (c_governance c) filt start_after (N.min (dflt 50 limit) 100) ;;
  to_views o s now pls.

(** * Histories *)

(** A call by anyone or a reply to one of the contract's own messages, with what the other contracts answer
    at that moment. A failed call changes nothing. *)
Inductive ctl_event := CallCtl (sender : addr) (coins : list coin) (m : controller_msg) | ReplyCtl (id : N) (r : reply_result).
Record ctl_call := mk_ccall { cc_oracle : ctl_oracle; cc_env : env; cc_event : ctl_event }.

Definition ctl_handle (self : addr) (s : ctl) (c : ctl_call) : res (ctl * list sub_msg) :=
  match cc_event c with
  | CallCtl sender coins m => ctl_execute (cc_oracle c) self s (cc_env c) sender coins m
  | ReplyCtl id r => ctl_reply (cc_oracle c) self s (cc_env c) id r
  end.

Definition ctl_step (self : addr) (s : ctl) (c : ctl_call) : ctl * list sub_msg :=
  match ctl_handle self s c with Ok x => x | Err _ => (s, []) end.

Definition ctl_run (self : addr) (s : ctl) (cs : list ctl_call) : ctl :=
  fold_left (fun s c => fst (ctl_step self s c)) cs s.
