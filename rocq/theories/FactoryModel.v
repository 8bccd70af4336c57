(** The factory: contracts/enterprise-factory/src. It instantiates the contracts of a DAO one after another,
    learning each address from a reply. *)
From Verif Require Import Base OMap Assets MemberModel Msgs TreasuryModel EnterpriseModel OutpostsModel.

(** * State and messages *)

(** packages/enterprise-factory-api/src/api.rs [Config] *)
Record fa_conf := mk_fa_conf { fc_admin : addr; fc_versioning : addr; fc_cw20 : N; fc_cw721 : N }.

(** packages/enterprise-factory-api/src/api.rs [CreateDaoMembershipMsg] and the messages inside. Names, symbols,
    decimals and marketing texts are left out, and of a minter the cap. *)
Inductive membership_spec :=
| NewDenom (denom : N) (period : duration)
| ImportCw20 (token : N) (period : duration)
| NewCw20 (balances : list (N * N)) (dao_balance : option N) (minter : option N) (period : duration)
| ImportCw721 (nft : N) (period : duration)
| NewCw721 (minter : option N) (period : duration)
| NewIcs721 (proxy class : N) (period : duration)
| ImportCw3 (cw3 : N)
| NewMultisig (members : list (N * N)).

(** packages/enterprise-factory-api/src/api.rs [CreateDaoMsg] *)
Record create_msg := mk_create {
  cm_metadata : metadata;
  cm_gov : gov_config;
  cm_council : option council_spec;
  cm_membership : membership_spec;
  cm_assets : option (list asset);
  cm_nfts : option (list N);
  cm_minimum : option N;
  cm_treasuries : option (list deploy_spec);
  cm_attestation : option N
}.

(** state.rs:26-48 [DaoBeingCreated] *)
Record pending := mk_pending {
  pd_msg : option create_msg;
  pd_version : option version_info;
  pd_asset : option asset;
  pd_nft : option addr;
  pd_enterprise : option addr;
  pd_weights : option (list (N * N));
  pd_type : option dao_type;
  pd_period : option duration;
  pd_membership : option addr;
  pd_council : option addr;
  pd_funds : option addr;
  pd_governance : option addr;
  pd_controller : option addr;
  pd_outposts : option addr;
  pd_treasury : option addr;
  pd_attestation : option addr
}.

(** contract.rs:253-273: the cleared record *)
Definition no_pending : pending := mk_pending None None None None None None None None None None None None None None None None.

(** The [DaoBeingCreated { field: Some(..), ..info }] updates, one per field written *)
Definition pd_set_asset (p : pending) (x : asset) : pending :=
  mk_pending (pd_msg p) (pd_version p) (Some x) (pd_nft p) (pd_enterprise p) (pd_weights p) (pd_type p) (pd_period p) (pd_membership p) (pd_council p) (pd_funds p) (pd_governance p) (pd_controller p) (pd_outposts p) (pd_treasury p) (pd_attestation p).
Definition pd_set_nft (p : pending) (x : addr) : pending :=
  mk_pending (pd_msg p) (pd_version p) (pd_asset p) (Some x) (pd_enterprise p) (pd_weights p) (pd_type p) (pd_period p) (pd_membership p) (pd_council p) (pd_funds p) (pd_governance p) (pd_controller p) (pd_outposts p) (pd_treasury p) (pd_attestation p).
Definition pd_set_enterprise (p : pending) (x : addr) : pending :=
  mk_pending (pd_msg p) (pd_version p) (pd_asset p) (pd_nft p) (Some x) (pd_weights p) (pd_type p) (pd_period p) (pd_membership p) (pd_council p) (pd_funds p) (pd_governance p) (pd_controller p) (pd_outposts p) (pd_treasury p) (pd_attestation p).
Definition pd_set_weights (p : pending) (x : list (N * N)) : pending :=
  mk_pending (pd_msg p) (pd_version p) (pd_asset p) (pd_nft p) (pd_enterprise p) (Some x) (pd_type p) (pd_period p) (pd_membership p) (pd_council p) (pd_funds p) (pd_governance p) (pd_controller p) (pd_outposts p) (pd_treasury p) (pd_attestation p).
Definition pd_set_period (p : pending) (x : duration) : pending :=
  mk_pending (pd_msg p) (pd_version p) (pd_asset p) (pd_nft p) (pd_enterprise p) (pd_weights p) (pd_type p) (Some x) (pd_membership p) (pd_council p) (pd_funds p) (pd_governance p) (pd_controller p) (pd_outposts p) (pd_treasury p) (pd_attestation p).
Definition pd_set_membership (p : pending) (x : addr) : pending :=
  mk_pending (pd_msg p) (pd_version p) (pd_asset p) (pd_nft p) (pd_enterprise p) (pd_weights p) (pd_type p) (pd_period p) (Some x) (pd_council p) (pd_funds p) (pd_governance p) (pd_controller p) (pd_outposts p) (pd_treasury p) (pd_attestation p).
Definition pd_set_council (p : pending) (x : addr) : pending :=
  mk_pending (pd_msg p) (pd_version p) (pd_asset p) (pd_nft p) (pd_enterprise p) (pd_weights p) (pd_type p) (pd_period p) (pd_membership p) (Some x) (pd_funds p) (pd_governance p) (pd_controller p) (pd_outposts p) (pd_treasury p) (pd_attestation p).
Definition pd_set_funds (p : pending) (x : addr) : pending :=
  mk_pending (pd_msg p) (pd_version p) (pd_asset p) (pd_nft p) (pd_enterprise p) (pd_weights p) (pd_type p) (pd_period p) (pd_membership p) (pd_council p) (Some x) (pd_governance p) (pd_controller p) (pd_outposts p) (pd_treasury p) (pd_attestation p).
Definition pd_set_governance (p : pending) (x : addr) : pending :=
  mk_pending (pd_msg p) (pd_version p) (pd_asset p) (pd_nft p) (pd_enterprise p) (pd_weights p) (pd_type p) (pd_period p) (pd_membership p) (pd_council p) (pd_funds p) (Some x) (pd_controller p) (pd_outposts p) (pd_treasury p) (pd_attestation p).
Definition pd_set_controller (p : pending) (x : addr) : pending :=
  mk_pending (pd_msg p) (pd_version p) (pd_asset p) (pd_nft p) (pd_enterprise p) (pd_weights p) (pd_type p) (pd_period p) (pd_membership p) (pd_council p) (pd_funds p) (pd_governance p) (Some x) (pd_outposts p) (pd_treasury p) (pd_attestation p).
Definition pd_set_outposts (p : pending) (x : addr) : pending :=
  mk_pending (pd_msg p) (pd_version p) (pd_asset p) (pd_nft p) (pd_enterprise p) (pd_weights p) (pd_type p) (pd_period p) (pd_membership p) (pd_council p) (pd_funds p) (pd_governance p) (pd_controller p) (Some x) (pd_treasury p) (pd_attestation p).
Definition pd_set_treasury (p : pending) (x : addr) : pending :=
  mk_pending (pd_msg p) (pd_version p) (pd_asset p) (pd_nft p) (pd_enterprise p) (pd_weights p) (pd_type p) (pd_period p) (pd_membership p) (pd_council p) (pd_funds p) (pd_governance p) (pd_controller p) (pd_outposts p) (Some x) (pd_attestation p).
Definition pd_set_attestation (p : pending) (x : addr) : pending :=
  mk_pending (pd_msg p) (pd_version p) (pd_asset p) (pd_nft p) (pd_enterprise p) (pd_weights p) (pd_type p) (pd_period p) (pd_membership p) (pd_council p) (pd_funds p) (pd_governance p) (pd_controller p) (pd_outposts p) (pd_treasury p) (Some x).

(** state.rs:13-24: [CONFIG], [DAO_ADDRESSES], [DAO_ID_COUNTER], [GLOBAL_ASSET_WHITELIST],
    [GLOBAL_NFT_WHITELIST], [ENTERPRISE_CODE_IDS] (written by no handler of this version),
    [DAO_BEING_CREATED] ([None] until the first save) *)
Record factory := mk_factory {
  fa_config : fa_conf;
  fa_daos : omap addr;
  fa_counter : N;
  fa_assets : list asset;
  fa_nfts : list addr;
  fa_code_ids : omap unit;
  fa_pending : option pending
}.

Definition fa_put (s : factory) (p : pending) : factory :=
  mk_factory (fa_config s) (fa_daos s) (fa_counter s) (fa_assets s) (fa_nfts s) (fa_code_ids s) (Some p).

(** What the factory asks other contracts. [fo_latest], [fo_version]: the version registry at an address;
    [fo_supply]: cw20 TokenInfo (its total supply); [fo_minter]: cw20 Minter, whether there is one;
    [fo_tokens]: whether cw721 NumTokens answers; [fo_voters contract start_after limit]: cw3 ListVoters.
    [fo_fuel] bounds the number of pages read (a longer list runs out of gas). *)
Record fa_oracle := mk_fa_oracle {
  fo_self : addr;
  fo_latest : addr -> res version_info;
  fo_version : addr -> N -> res version_info;
  fo_supply : N -> res N;
  fo_minter : N -> res bool;
  fo_tokens : N -> res unit;
  fo_voters : N -> option N -> N -> res (list (N * N));
  fo_fuel : nat
}.

(** contract.rs:77-107 [instantiate] *)
Definition factory_instantiate (c : fa_conf) (assets : option (list asset)) (nfts : option (list N)) : res factory :=
  assets <- map_res check_asset (dflt [] assets) ;;
  nfts <- map_res addr_validate (dflt [] nfts) ;;
  Ok (mk_factory c oempty 1 assets nfts oempty None).

(** * Creating a DAO *)

(** [DAO_BEING_CREATED.load] *)
Definition fa_load (s : factory) : res pending := ok_or (fa_pending s) ENotFound.

(** state.rs:50-139: the [require_*] functions *)
Definition require {A} (x : option A) : res A := ok_or x EInvalidState.

(** contract.rs:158-163 *)
Definition dao_type_of (m : membership_spec) : dao_type :=
  match m with
  | NewDenom _ _ => DaoDenom
  | ImportCw20 _ _ | NewCw20 _ _ _ _ => DaoToken
  | ImportCw721 _ _ | NewCw721 _ _ | NewIcs721 _ _ _ => DaoNft
  | ImportCw3 _ | NewMultisig _ => DaoMultisig
  end.

Definition inst (admin : option N) (code : N) (m : init_msg) (reply : N) : sub_msg :=
  mk_sub (WasmInstantiate admin code m) (ReplySuccess reply).

(** contract.rs:150-209 [create_dao_with_version_info] *)
Definition create_with (o : fa_oracle) (s : factory) (m : create_msg) (v : version_info)
  : res (factory * list sub_msg) :=
  let t := dao_type_of (cm_membership m) in
  let s := fa_put s (mk_pending (Some m) (Some v) None None None None (Some t)
                       None None None None None None None None None) in
  Ok (s, [inst (Some (fo_self o)) (vi_enterprise v)
            (InitEnterprise (fo_self o) (fc_versioning (fa_config s)) None t (vi_version v) (cm_metadata m)) 1]).

(** contract.rs:119-129 [create_dao] ([v = None]), 131-148 [create_dao_with_version] *)
Definition create_dao (o : fa_oracle) (s : factory) (m : create_msg) (v : option N) : res (factory * list sub_msg) :=
  info <- (match v with
           | None => fo_latest o (fc_versioning (fa_config s))
           | Some v => fo_version o (fc_versioning (fa_config s)) v
           end) ;;
  create_with o s m info.

(** contract.rs:211-242 [update_config] *)
Definition fa_update_config (s : factory) (sender : addr) (admin versioning cw20 cw721 : option N)
  : res (factory * list sub_msg) :=
  let c := fa_config s in
  _ <- guard (fc_admin c =? sender) EUnauthorized ;;
  a <- (match admin with Some a => addr_validate a | None => Ok (fc_admin c) end) ;;
  v <- (match versioning with Some a => addr_validate a | None => Ok (fc_versioning c) end) ;;
  Ok (mk_factory (mk_fa_conf a v (dflt (fc_cw20 c) cw20) (dflt (fc_cw721 c) cw721))
        (fa_daos s) (fa_counter s) (fa_assets s) (fa_nfts s) (fa_code_ids s) (fa_pending s), []).

(** contract.rs:244-341 [finalize_dao_creation] *)
Definition finalize_dao (o : fa_oracle) (s : factory) (sender : addr) : res (factory * list sub_msg) :=
  _ <- guard (sender =? fo_self o) EUnauthorized ;;
  p <- fa_load s ;;
  en <- require (pd_enterprise p) ;;
  tr <- require (pd_treasury p) ;;
  gov <- require (pd_governance p) ;;
  ctl <- require (pd_controller p) ;;
  op <- require (pd_outposts p) ;;
  fd <- require (pd_funds p) ;;
  mb <- require (pd_membership p) ;;
  cl <- require (pd_council p) ;;
  m <- require (pd_msg p) ;;
  let extra :=
    match cm_treasuries m with
    | Some (d :: l) =>
        [plain (BankSend op [(ULUNA, N.of_nat (length (d :: l)))]);
         plain (WasmExecute ctl (ToController CDeployInitial) [])]
    | _ => []
    end in
  Ok (fa_put s no_pending,
      plain (WasmExecute en (ToEnterprise (EnFinalize (mk_components gov ctl tr op fd mb cl (pd_attestation p)))) [])
        :: extra).

(** * The membership contract *)

(** validate.rs:44-55 [validate_unlocking_period] *)
Definition check_period (g : gov_config) (p : duration) : res unit :=
  match p with
  | DTime t => if t <? gc_vote_duration g then Err EVoteDurationLongerThanUnstaking else Ok tt
  | DHeight _ => Ok tt
  end.

(** token_membership.rs:148-186 [instantiate_token_staking_membership_contract] *)
Definition token_membership (s : factory) (token : N) (period : duration) (hooks : list N) : res sub_msg :=
  p <- fa_load s ;;
  en <- require (pd_enterprise p) ;;
  v <- require (pd_version p) ;;
  m <- require (pd_msg p) ;;
  _ <- check_period (cm_gov m) period ;;
  Ok (inst (Some en) (vi_token v) (InitMember (IToken en token period [] [] hooks)) 4).

(** denom_membership.rs:11-50 [instantiate_denom_staking_membership_contract] *)
Definition denom_membership (s : factory) (denom : N) (period : duration) (hooks : list N) : res (factory * sub_msg) :=
  p <- fa_load s ;;
  en <- require (pd_enterprise p) ;;
  v <- require (pd_version p) ;;
  m <- require (pd_msg p) ;;
  _ <- check_period (cm_gov m) period ;;
  Ok (fa_put s (pd_set_period p period),
      inst (Some en) (vi_denom v) (InitMember (IDenom en denom period hooks)) 4).

(** nft_membership.rs:106-141 [instantiate_nft_staking_membership_contract] *)
Definition nft_membership (s : factory) (c : nft_contract) (period : duration) (hooks : list N) : res sub_msg :=
  p <- fa_load s ;;
  en <- require (pd_enterprise p) ;;
  v <- require (pd_version p) ;;
  m <- require (pd_msg p) ;;
  _ <- check_period (cm_gov m) period ;;
  Ok (inst (Some en) (vi_nft v) (InitMember (INft en c period [] [] hooks)) 4).

(** multisig_membership.rs:88-123 [instantiate_multisig_membership_contract] *)
Definition multisig_membership (s : factory) (weights : list (N * N)) (hooks : list N) (reply : N)
  : res (factory * sub_msg) :=
  p <- fa_load s ;;
  en <- require (pd_enterprise p) ;;
  v <- require (pd_version p) ;;
  Ok (fa_put s (pd_set_weights p weights),
      inst (Some en) (vi_multisig v) (InitMember (IMultisig en (Some weights) [] [] hooks)) reply).

(** token_membership.rs:18-54 [import_cw20_membership], validate.rs:14-21 *)
Definition import_cw20 (o : fa_oracle) (s : factory) (token : N) (period : duration) (hooks : list N)
  : res (factory * sub_msg) :=
  token <- addr_validate token ;;
  _ <- (match fo_supply o token with Ok _ => Ok tt | Err _ => Err EInvalidArgument end) ;;
  supply <- fo_supply o token ;;
  _ <- (if supply =? 0 then b <- fo_minter o token ;; guard b EInvalidArgument else Ok tt) ;;
  p <- fa_load s ;;
  let s := fa_put s (pd_set_period p period) in
  m <- token_membership s token period hooks ;;
  Ok (s, m).

(** token_membership.rs:56-146 [instantiate_new_cw20_membership] *)
Definition new_cw20 (s : factory) (treasury : addr) (balances : list (N * N)) (dao_balance minter : option N)
    (period : duration) : res (factory * sub_msg) :=
  _ <- (match dao_balance with Some b => guard (negb (b =? 0)) EInvalidArgument | None => Ok tt end) ;;
  _ <- guard (forallb (fun b => negb (snd b =? 0)) balances) EInvalidArgument ;;
  _ <- guard (negb ((match balances with [] => true | _ => false end) && negb (is_some minter))) EInvalidArgument ;;
  p <- fa_load s ;;
  en <- require (pd_enterprise p) ;;
  let s := fa_put s (pd_set_period p period) in
  let balances := match dao_balance with None => balances | Some b => balances ++ [(treasury, b)] end in
  Ok (s, inst (Some en) (fc_cw20 (fa_config s)) (InitCw20 balances (dflt en minter)) 2).

(** nft_membership.rs:17-38 [import_cw721_membership], validate.rs:23-30 *)
Definition import_cw721 (o : fa_oracle) (s : factory) (nft : N) (period : duration) (hooks : list N)
  : res (factory * sub_msg) :=
  _ <- (match fo_tokens o nft with Ok _ => Ok tt | Err _ => Err EInvalidArgument end) ;;
  p <- fa_load s ;;
  let s := fa_put s (pd_set_period p period) in
  m <- nft_membership s (NCw721 nft) period hooks ;;
  Ok (s, m).

(** nft_membership.rs:40-77 [instantiate_new_cw721_membership] *)
Definition new_cw721 (s : factory) (minter : option N) (period : duration) : res (factory * sub_msg) :=
  p <- fa_load s ;;
  en <- require (pd_enterprise p) ;;
  let s := fa_put s (pd_set_period p period) in
  Ok (s, inst (Some en) (fc_cw721 (fa_config s)) (InitCw721 (dflt en minter)) 3).

(** nft_membership.rs:79-104 [import_ics721_membership] *)
Definition import_ics721 (s : factory) (proxy class : N) (period : duration) (hooks : list N)
  : res (factory * sub_msg) :=
  p <- fa_load s ;;
  let s := fa_put s (pd_set_period p period) in
  m <- nft_membership s (NIcs721 proxy class) period hooks ;;
  Ok (s, m).

(** multisig_membership.rs:16 [LIST_VOTERS_QUERY_LIMIT] *)
Definition VOTERS_LIMIT : N := 100.

(** multisig_membership.rs:46-57: one page of voters is appended; the last address read, the list, the total *)
Fixpoint add_voters (l : list (N * N)) (last : option N) (acc : list (N * N)) (total : N)
  : res (option N * list (N * N) * N) :=
  match l with
  | [] => Ok (last, acc, total)
  | (u, w) :: l => t <- uint_add total w ;; add_voters l (Some u) (acc ++ [(u, w)]) t
  end.

(** multisig_membership.rs:32-60: the [while] loop over the pages *)
Fixpoint read_voters (n : nat) (o : fa_oracle) (cw3 : N) (start : option N) (acc : list (N * N)) (total : N)
  : res (list (N * N) * N) :=
  match n with
  | O => Err EGas
  | S n =>
      page <- fo_voters o cw3 start VOTERS_LIMIT ;;
      '(last, acc, total) <- add_voters page None acc total ;;
      match last with
      | Some u => read_voters n o cw3 (Some u) acc total
      | None => Ok (acc, total)
      end
  end.

(** multisig_membership.rs:18-73 [import_cw3_membership], validate.rs:32-42 *)
Definition import_cw3 (o : fa_oracle) (s : factory) (cw3 : N) (hooks : list N) : res (factory * sub_msg) :=
  cw3 <- addr_validate cw3 ;;
  _ <- (match fo_voters o cw3 None 10 with Ok _ => Ok tt | Err _ => Err EInvalidArgument end) ;;
  '(weights, total) <- read_voters (fo_fuel o) o cw3 None [] 0 ;;
  _ <- guard (negb (total =? 0)) ENoInitialMembers ;;
  multisig_membership s weights hooks 4.

(** contract.rs:671-702: the membership contract of the chosen kind; 75-86 of multisig_membership.rs
    [instantiate_new_multisig_membership] *)
Definition membership (o : fa_oracle) (s : factory) (treasury : addr) (m : membership_spec) (hooks : list N)
  : res (factory * sub_msg) :=
  match m with
  | NewDenom d p => denom_membership s d p hooks
  | ImportCw20 t p => import_cw20 o s t p hooks
  | NewCw20 b d mi p => new_cw20 s treasury b d mi p
  | ImportCw721 c p => import_cw721 o s c p hooks
  | NewCw721 mi p => new_cw721 s mi p
  | ImportCw3 c => import_cw3 o s c hooks
  | NewIcs721 c k p => import_ics721 s c k p hooks
  | NewMultisig l =>
      _ <- guard (negb (match l with [] => true | _ => false end)) ENoInitialMembers ;;
      multisig_membership s l hooks 4
  end.

(** * Replies *)

(** [parse_reply_instantiate_data] and [addr_validate]; the replies are sent on success only *)
Definition reply_addr (r : reply_result) : res addr :=
  match r with ROk (Some a) => addr_validate a | _ => Err EStd end.

(** contract.rs:345-394 [ENTERPRISE_INSTANTIATE_REPLY_ID] *)
Definition reply_enterprise (s : factory) (en : addr) : res (factory * list sub_msg) :=
  p <- fa_load s ;;
  m <- require (pd_msg p) ;;
  v <- require (pd_version p) ;;
  t <- require (pd_type p) ;;
  Ok (fa_put s (pd_set_enterprise p en),
      [plain (WasmUpdateAdmin en en);
       inst (Some en) (vi_controller v) (InitController en t (cm_gov m) (cm_council m) (cm_treasuries m)) 8]).

(** contract.rs:395-424 [CW20_CONTRACT_INSTANTIATE_REPLY_ID] *)
Definition reply_cw20 (s : factory) (token : addr) : res (factory * list sub_msg) :=
  p <- fa_load s ;;
  period <- require (pd_period p) ;;
  ctl <- require (pd_controller p) ;;
  let s := fa_put s (pd_set_asset p (Cw20 token)) in
  m <- token_membership s token period [ctl] ;;
  Ok (s, [m]).

(** contract.rs:425-456 [CW721_CONTRACT_INSTANTIATE_REPLY_ID] *)
Definition reply_cw721 (s : factory) (nft : addr) : res (factory * list sub_msg) :=
  p <- fa_load s ;;
  period <- require (pd_period p) ;;
  ctl <- require (pd_controller p) ;;
  let s := fa_put s (pd_set_nft p nft) in
  m <- nft_membership s (NCw721 nft) period [ctl] ;;
  Ok (s, [m]).

(** contract.rs:525-639 [ENTERPRISE_GOVERNANCE_CONTROLLER_INSTANTIATE_REPLY_ID] *)
Definition reply_controller (o : fa_oracle) (s : factory) (ctl : addr) : res (factory * list sub_msg) :=
  p <- fa_load s ;;
  let s := fa_put s (pd_set_controller p ctl) in
  m <- require (pd_msg p) ;;
  v <- require (pd_version p) ;;
  en <- require (pd_enterprise p) ;;
  let gov := inst (Some en) (vi_governance v) (InitGovernance ctl) 7 in
  let outposts := inst (Some en) (vi_outposts v) (InitOutposts en) 9 in
  let assets := dflt [] (cm_assets m) ++ (match pd_asset p with Some a => [a] | None => [] end) in
  let nfts := dflt [] (cm_nfts m) ++ (match pd_nft p with Some a => [a] | None => [] end) in
  let treasury := inst (Some en) (vi_treasury v) (InitTreasury ctl (Some assets) (Some nfts)) 10 in
  let councillors := map (fun u => (u, 1)) (match cm_council m with Some c => cs_members c | None => [] end) in
  '(s, council) <- multisig_membership s councillors [ctl] 5 ;;
  let attestation := match cm_attestation m with
                     | Some t => [inst None (vi_attestation v) (InitAttestation t) 11]
                     | None => []
                     end in
  Ok (s, [gov; council; outposts; treasury] ++ attestation
           ++ [plain (WasmExecute (fo_self o) (ToFactory FaFinalizeDao) [])]).

(** contract.rs:654-757 [ENTERPRISE_TREASURY_INSTANTIATE_REPLY_ID]; the id is a native u64 *)
Definition reply_treasury (o : fa_oracle) (s : factory) (tr : addr) : res (factory * list sub_msg) :=
  let id := fa_counter s in
  let s := mk_factory (fa_config s) (oset (fa_daos s) id tr) (u64_add id 1) (fa_assets s) (fa_nfts s)
             (fa_code_ids s) (fa_pending s) in
  p <- fa_load s ;;
  let s := fa_put s (pd_set_treasury p tr) in
  m <- require (pd_msg p) ;;
  ctl <- require (pd_controller p) ;;
  '(s, mb) <- membership o s tr (cm_membership m) [ctl] ;;
  p <- fa_load s ;;
  v <- require (pd_version p) ;;
  en <- require (pd_enterprise p) ;;
  Ok (s, [mb; inst (Some en) (vi_funds v) (InitFunds ctl en (dflt [] (pd_weights p)) (cm_minimum m)) 6]).

(** The replies that only store the address: contract.rs:457-473 (membership), 474-490 (council),
    491-507 (funds distributor), 508-524 (governance), 640-653 (outposts), 758-772 (attestation) *)
Definition reply_store (s : factory) (set : pending -> addr -> pending) (a : addr) : res (factory * list sub_msg) :=
  p <- fa_load s ;; Ok (fa_put s (set p a), []).

(** contract.rs:343-778 [reply] *)
Definition factory_reply (o : fa_oracle) (s : factory) (id : N) (r : reply_result) : res (factory * list sub_msg) :=
  match id with
  | 1 => a <- reply_addr r ;; reply_enterprise s a
  | 2 => a <- reply_addr r ;; reply_cw20 s a
  | 3 => a <- reply_addr r ;; reply_cw721 s a
  | 4 => a <- reply_addr r ;; reply_store s pd_set_membership a
  | 5 => a <- reply_addr r ;; reply_store s pd_set_council a
  | 6 => a <- reply_addr r ;; reply_store s pd_set_funds a
  | 7 => a <- reply_addr r ;; reply_store s pd_set_governance a
  | 8 => a <- reply_addr r ;; reply_controller o s a
  | 9 => a <- reply_addr r ;; reply_store s pd_set_outposts a
  | 10 => a <- reply_addr r ;; reply_treasury o s a
  | 11 => a <- reply_addr r ;; reply_store s pd_set_attestation a
  | _ => Err EUnknownReply
  end.

(** packages/enterprise-factory-api/src/msg.rs [ExecuteMsg]; contract.rs:109-117 [execute].
    [FaCreate m v]: CreateDao ([v = None]) or CreateDaoWithVersion. *)
Inductive fa_msg :=
| FaCreate (m : create_msg) (v : option N)
| FaUpdateConfig (admin versioning cw20 cw721 : option N)
| FaFinalize.

Definition factory_execute (o : fa_oracle) (s : factory) (sender : addr) (m : fa_msg) : res (factory * list sub_msg) :=
  match m with
  | FaCreate m v => create_dao o s m v
  | FaUpdateConfig a v c n => fa_update_config s sender a v c n
  | FaFinalize => finalize_dao o s sender
  end.

(** * One whole transaction *)

(** What happens besides the factory's own calls: a contract is instantiated, at the address the chain chooses,
    or another message is delivered. *)
Inductive effect :=
| Created (at_ : addr) (admin : option N) (code : N) (m : init_msg)
| Sent (m : cosmos_msg).

(** The chain's delivery of the factory's messages (CosmWasm dispatches depth first: the messages a reply emits
    come before the rest). [fresh] are the addresses the chain assigns, in order; a contract that refuses its
    instantiation (or a message that fails) fails the whole transaction, so every transaction that succeeds is
    one of these. The contracts instantiated here (enterprise, controller, governance, memberships, outposts,
    treasury, distributor, attestation, cw20, cw721) emit no message when instantiated, so nothing else reaches
    the factory in between; of the messages sent at the end none goes to the factory. *)
Fixpoint deliver (n : nat) (o : fa_oracle) (s : factory) (todo : list sub_msg) (fresh : list addr)
  : res (factory * list effect) :=
  match todo with
  | [] => Ok (s, [])
  | x :: rest =>
      match n with
      | O => Err EGas
      | S n =>
          match sm_msg x, sm_reply x with
          | WasmInstantiate admin code m, ReplySuccess id =>
              match fresh with
              | [] => Err EStd
              | a :: fresh =>
                  '(s, more) <- factory_reply o s id (ROk (Some a)) ;;
                  '(s, log) <- deliver n o s (more ++ rest) fresh ;;
                  Ok (s, Created a admin code m :: log)
              end
          | WasmExecute c (ToFactory FaFinalizeDao) f, _ =>
              if c =? fo_self o then
                '(s, more) <- factory_execute o s (fo_self o) FaFinalize ;;
                deliver n o s (more ++ rest) fresh
              else Err ENoSuchContract
          | m, _ => '(s, log) <- deliver n o s rest fresh ;; Ok (s, Sent m :: log)
          end
      end
  end.

(** Fewer than 20 messages are delivered in the creation of a DAO. *)
Definition CREATION_STEPS : nat := 20.

(** A call of the factory from outside, with all its messages. *)
Record fa_call := mk_fa_call { fl_oracle : fa_oracle; fl_sender : addr; fl_msg : fa_msg; fl_fresh : list addr }.

Definition fa_tx (s : factory) (c : fa_call) : res (factory * list effect) :=
  '(s, subs) <- factory_execute (fl_oracle c) s (fl_sender c) (fl_msg c) ;;
  deliver CREATION_STEPS (fl_oracle c) s subs (fl_fresh c).

Definition fa_step (s : factory) (c : fa_call) : factory :=
  match fa_tx s c with Ok (s', _) => s' | Err _ => s end.

Definition fa_run (s : factory) (l : list fa_call) : factory := fold_left fa_step l s.

(** * Queries *)

(** contract.rs:797-819 [query_all_daos]: default 50, at most 100 per page *)
Definition query_all_daos (s : factory) (start_after limit : option N) : list (N * addr) :=
  take (N.min (dflt 50 limit) 100) (orange (fa_daos s) start_after).

(** contract.rs:833-854 [query_enterprise_code_ids] *)
Definition query_code_ids (s : factory) (start_after limit : option N) : list N :=
  map fst (take (N.min (dflt 50 limit) 100) (orange (fa_code_ids s) start_after)).

(** contract.rs:856-893 [query_is_enterprise_code_id], [query_version_1_0_0_info] *)
Definition query_is_code_id (o : fa_oracle) (s : factory) (code : N) : res bool :=
  if ohas (fa_code_ids s) code then Ok true
  else v <- fo_version o (fc_versioning (fa_config s)) (version 1 0 0) ;; Ok (vi_treasury v =? code).
