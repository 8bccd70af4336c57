(** The contracts of one DAO running together on the chain.

    The handlers of the other model files are connected: every query a handler makes is answered from the
    current state of the contract it asks, every message a handler emits is delivered to the contract it
    names, in the order of CosmWasm (depth first; a sub-message runs completely, with the reply to it, before
    the next one; a failing sub-message rolls back everything it did, and the failure is caught only by a
    reply asked for "always").

    Everything outside the DAO (bank, tokens, NFT collections, attestation, version registry, factory, users'
    contracts, the other modules of the chain) is one opaque state of type [X] with arbitrary behaviour
    ([outside]); it may call the contracts of the DAO back at any time, under its own addresses.

    Not modelled: the authz module (no contract can act for another address), gas other than as the number
    [n] of nested steps, and what the contracts do after one of them has been migrated to code other than that
    of this repository (the flag [w_upgraded] tells that this, or a change of a migration admin, has happened;
    see [migrate_to]). *)
From Verif Require Import Base OMap Assets PollModel FundsModel MemberModel Msgs ControllerModel TreasuryModel
  EnterpriseModel OutpostsModel.

(** Addresses of the contracts of the DAO (contracts/enterprise/src/state.rs [ComponentContracts] and the
    enterprise contract itself). *)
Record addrs := mk_addrs {
  a_enterprise : addr;
  a_controller : addr;
  a_governance : addr;
  a_membership : addr;
  a_council : addr;
  a_funds : addr;
  a_treasury : addr;
  a_outposts : addr
}.

Definition dao_addrs (A : addrs) : list addr :=
  [a_enterprise A; a_controller A; a_governance A; a_membership A; a_council A; a_funds A; a_treasury A; a_outposts A].
Definition is_dao (A : addrs) (a : addr) : bool := existsb (N.eqb a) (dao_addrs A).

(** The states of the contracts; [w_log] lists the messages delivered so far (sender, message), the latest
    first, without those of failed (rolled back) sub-messages; [w_ext] is the rest of the chain. *)
Record world (X : Type) := mk_world {
  w_enterprise : enterprise;
  w_ctl : ctl;
  w_gov : gov;
  w_member : member_state;
  w_council : member_state;
  w_funds : funds;
  w_treasury : treasury;
  w_outposts : outposts;
  w_log : list (addr * cosmos_msg);
  w_upgraded : bool;
  w_ext : X
}.
Arguments mk_world {X}.
Arguments w_enterprise {X}.
Arguments w_ctl {X}.
Arguments w_gov {X}.
Arguments w_member {X}.
Arguments w_council {X}.
Arguments w_funds {X}.
Arguments w_treasury {X}.
Arguments w_outposts {X}.
Arguments w_log {X}.
Arguments w_upgraded {X}.
Arguments w_ext {X}.

(** The contracts of a DAO, as stored code. *)
Inductive code_kind :=
| KEnterprise | KController | KGovernance | KToken | KDenom | KNft | KMultisig | KFunds | KTreasury | KOutposts.

(** The behaviour of everything outside: executing a contract (new state, messages, response data), replies to
    outside contracts, other messages (payments, instantiations, IBC ...), attaching coins to a call, and the
    answers to the queries of the DAO's contracts. [x_code] tells which code ids hold the code of this repository,
    and of which contract. *)
Record outside (X : Type) := mk_outside {
  x_exec : world X -> env -> addr -> addr -> wasm_msg -> list coin -> res (X * list sub_msg * option N);
  x_reply : world X -> env -> addr -> N -> reply_result -> res (X * list sub_msg);
  x_msg : world X -> env -> addr -> cosmos_msg -> res (X * option N);
  x_pay : X -> addr -> addr -> list coin -> res X;
  x_signed : X -> addr -> N -> res bool;
  x_nft_owner : X -> addr -> N -> res (N * list N);
  x_ics721 : X -> addr -> N -> res (option addr);
  x_global : X -> addr -> list asset;
  x_versions : X -> addr -> option N -> option N -> res (list version_info);
  x_version : X -> addr -> N -> res version_info;
  x_creator : X -> addr -> res N;
  x_derive : N -> N -> N -> res N;
  x_code : X -> N -> option code_kind
}.
Arguments mk_outside {X}.
Arguments x_exec {X}.
Arguments x_reply {X}.
Arguments x_msg {X}.
Arguments x_pay {X}.
Arguments x_signed {X}.
Arguments x_nft_owner {X}.
Arguments x_ics721 {X}.
Arguments x_global {X}.
Arguments x_versions {X}.
Arguments x_version {X}.
Arguments x_creator {X}.
Arguments x_derive {X}.
Arguments x_code {X}.

Section World.
Context {X : Type}.
Variable Out : outside X.
Variable A : addrs.

Definition set_enterprise (w : world X) (s : enterprise) : world X :=
  mk_world s (w_ctl w) (w_gov w) (w_member w) (w_council w) (w_funds w) (w_treasury w) (w_outposts w) (w_log w)
    (w_upgraded w) (w_ext w).
Definition set_ctl (w : world X) (s : ctl) : world X :=
  mk_world (w_enterprise w) s (w_gov w) (w_member w) (w_council w) (w_funds w) (w_treasury w) (w_outposts w) (w_log w)
    (w_upgraded w) (w_ext w).
Definition set_gov (w : world X) (s : gov) : world X :=
  mk_world (w_enterprise w) (w_ctl w) s (w_member w) (w_council w) (w_funds w) (w_treasury w) (w_outposts w) (w_log w)
    (w_upgraded w) (w_ext w).
Definition set_member (w : world X) (s : member_state) : world X :=
  mk_world (w_enterprise w) (w_ctl w) (w_gov w) s (w_council w) (w_funds w) (w_treasury w) (w_outposts w) (w_log w)
    (w_upgraded w) (w_ext w).
Definition set_councillors (w : world X) (s : member_state) : world X :=
  mk_world (w_enterprise w) (w_ctl w) (w_gov w) (w_member w) s (w_funds w) (w_treasury w) (w_outposts w) (w_log w)
    (w_upgraded w) (w_ext w).
Definition set_funds (w : world X) (s : funds) : world X :=
  mk_world (w_enterprise w) (w_ctl w) (w_gov w) (w_member w) (w_council w) s (w_treasury w) (w_outposts w) (w_log w)
    (w_upgraded w) (w_ext w).
Definition set_treasury (w : world X) (s : treasury) : world X :=
  mk_world (w_enterprise w) (w_ctl w) (w_gov w) (w_member w) (w_council w) (w_funds w) s (w_outposts w) (w_log w)
    (w_upgraded w) (w_ext w).
Definition set_outposts (w : world X) (s : outposts) : world X :=
  mk_world (w_enterprise w) (w_ctl w) (w_gov w) (w_member w) (w_council w) (w_funds w) (w_treasury w) s (w_log w)
    (w_upgraded w) (w_ext w).
Definition set_upgraded (w : world X) : world X :=
  mk_world (w_enterprise w) (w_ctl w) (w_gov w) (w_member w) (w_council w) (w_funds w) (w_treasury w) (w_outposts w)
    (w_log w) true (w_ext w).
Definition set_ext (w : world X) (x : X) : world X :=
  mk_world (w_enterprise w) (w_ctl w) (w_gov w) (w_member w) (w_council w) (w_funds w) (w_treasury w) (w_outposts w)
    (w_log w) (w_upgraded w) x.
Definition note (w : world X) (sender : addr) (m : cosmos_msg) : world X :=
  mk_world (w_enterprise w) (w_ctl w) (w_gov w) (w_member w) (w_council w) (w_funds w) (w_treasury w) (w_outposts w)
    ((sender, m) :: w_log w) (w_upgraded w) (w_ext w).

(** * Queries between the contracts: a query to an address is answered by the contract there. An address that
    is none of the DAO's contracts of the expected kind gives an error. *)

Definition enterprise_at (w : world X) (a : addr) : res enterprise :=
  if a =? a_enterprise A then Ok (w_enterprise w) else Err ENoSuchContract.
Definition members_at (w : world X) (a : addr) : res member_state :=
  if a =? a_membership A then Ok (w_member w)
  else if a =? a_council A then Ok (w_council w) else Err ENoSuchContract.
Definition gov_at (w : world X) (a : addr) : res gov :=
  if a =? a_governance A then Ok (w_gov w) else Err ENoSuchContract.
Definition treasury_at (w : world X) (a : addr) : res treasury :=
  if a =? a_treasury A then Ok (w_treasury w) else Err ENoSuchContract.

(** contracts/enterprise [ComponentContracts] *)
Definition components_by (w : world X) (enterprise : addr) : res components :=
  en <- enterprise_at w enterprise ;; '(_, _, c) <- query_component_contracts en ;; Ok c.
(** contracts/enterprise [IsRestrictedUser], which asks the attestation contract *)
Definition restricted_by (w : world X) (enterprise : addr) (user : N) : res bool :=
  en <- enterprise_at w enterprise ;; query_is_restricted_user (x_signed Out (w_ext w)) en user.

(** contracts/enterprise-governance-controller: its queries *)
Definition ctl_oracle_of (w : world X) : ctl_oracle :=
  let en := ct_enterprise (w_ctl w) in
  mk_ctl_oracle
    (e <- enterprise_at w en ;; Ok (en_type e))
    (e <- enterprise_at w en ;; Ok (en_version e))
    (components_by w en)
    (restricted_by w en)
    (fun a u => m <- members_at w a ;; query_user_weight (members_of m) u)
    (fun a x => m <- members_at w a ;; Ok (query_total_weight (members_of m) x))
    (fun a => m <- members_at w a ;;
              match m with MToken s => match st_asset s with Cw20 t => Ok t | _ => Err EStd end | _ => Err EStd end)
    (fun a => m <- members_at w a ;;
              match m with MDenom s => match st_asset s with Native d => Ok d | _ => Err EStd end | _ => Err EStd end)
    (fun a => m <- members_at w a ;;
              match m with
              | MNft s =>
                  match ns_contract s with
                  | NCw721 c => Ok c
                  | NIcs721 p c => r <- x_ics721 Out (w_ext w) p c ;; ok_or r EStd
                  end
              | _ => Err EStd
              end)
    (fun a id => g <- gov_at w a ;; query_poll g id)
    (fun a id max => g <- gov_at w a ;; st <- query_simulate g id max ;; p <- query_poll g id ;; Ok (st, p_ends_at p))
    (fun a filt start limit => g <- gov_at w a ;; Ok (query_polls g filt start None (Some limit) false))
    (x_nft_owner Out (w_ext w))
    (x_creator Out (w_ext w) (a_controller A)).

(** packages/membership-common: the queries of a membership contract *)
Definition member_oracle_of (w : world X) (m : member_state) : member_oracle :=
  let en := m_enterprise (members_of m) in
  mk_moracle
    (restricted_by w en)
    (c <- components_by w en ;; Ok (c_controller c))
    (match m with
     | MNft s => match ns_contract s with NIcs721 p c => x_ics721 Out (w_ext w) p c | NCw721 _ => Err EStd end
     | _ => Err EStd
     end).

(** contracts/funds-distributor: treasury whitelist pages, the factory's global whitelist, restriction (a failing
    query fails the claim just as a restriction does) *)
Definition funds_oracle_of (n : nat) (w : world X) : funds_oracle :=
  let en := f_enterprise (w_funds w) in
  mk_foracle
    (mk_wl n
       (fun start => c <- components_by w en ;; t <- treasury_at w (c_treasury c) ;; query_asset_whitelist t start None)
       (match enterprise_at w en with Ok e => x_global Out (w_ext w) (en_factory e) | Err _ => [] end))
    (fun u => match restricted_by w en u with Ok b => b | Err _ => true end).

(** contracts/enterprise: itself, its creator, the version registry *)
Definition en_oracle_of (n : nat) (w : world X) : en_oracle :=
  mk_en_oracle (a_enterprise A) (match x_creator Out (w_ext w) (a_enterprise A) with Ok c => c | Err _ => 0 end) n
    (x_versions Out (w_ext w)) (x_version Out (w_ext w)).

(** contracts/enterprise-outposts *)
Definition op_oracle_of (w : world X) : op_oracle :=
  mk_op_oracle (a_outposts A) (components_by w (op_enterprise (w_outposts w))) (x_derive Out).

(** * Messages the membership and distributor contracts emit *)

(** cw-asset [AssetInfo::transfer_msg] as used by funds-distributor/src/claim.rs:62,98 and the staking
    packages' execute.rs [claim] *)
Definition pay_msg (a : asset) (to amount : N) : cosmos_msg :=
  match a with
  | Native d => BankSend to [(d, amount)]
  | Cw20 t => WasmExecute t (ToCw20 (Cw20Transfer to amount)) []
  | Cw1155 t i => WasmExecute t (ToCw1155 (Cw1155Send 0 to i amount)) []
  end.
Definition member_sub (o : member_out) : sub_msg :=
  plain (match o with
         | OReport h changes => WasmExecute h (ToController (CWeightsChanged changes)) []
         | OPay a to amount => pay_msg a to amount
         | OSendNft c to token => WasmExecute c (ToCw721 (Cw721Transfer to token)) []
         end).
Definition funds_sub (p : payment) : sub_msg := plain (pay_msg (pay_asset p) (pay_to p) (pay_amount p)).

(** * Delivery *)

(** A call of the contract at [to]; a message of another contract's type does not parse. *)
Definition handle (n : nat) (w : world X) (e : env) (sender to : addr) (m : wasm_msg) (coins : list coin)
    : res (world X * list sub_msg * option N) :=
  if to =? a_controller A then
    match m with
    | ToController m =>
        '(s, subs) <- ctl_execute (ctl_oracle_of w) (a_controller A) (w_ctl w) e sender coins m ;;
        Ok (set_ctl w s, subs, None)
    | _ => Err EStd
    end
  else if to =? a_governance A then
    match m with
    | ToGovernance m => '(g, d) <- gov_execute (w_gov w) e sender m ;; Ok (set_gov w g, [], d)
    | _ => Err EStd
    end
  else if to =? a_membership A then
    match m with
    | ToMembership m =>
        '(s, outs) <- member_execute (member_oracle_of w (w_member w)) (w_member w) e sender coins m ;;
        Ok (set_member w s, map member_sub outs, None)
    | _ => Err EStd
    end
  else if to =? a_council A then
    match m with
    | ToMembership m =>
        '(s, outs) <- member_execute (member_oracle_of w (w_council w)) (w_council w) e sender coins m ;;
        Ok (set_councillors w s, map member_sub outs, None)
    | _ => Err EStd
    end
  else if to =? a_funds A then
    match m with
    | ToFunds m =>
        '(s, pays) <- funds_execute (funds_oracle_of n w) (w_funds w) sender coins m ;;
        Ok (set_funds w s, map funds_sub pays, None)
    | _ => Err EStd
    end
  else if to =? a_treasury A then
    match m with
    | ToTreasury m => '(s, subs) <- treasury_execute n (w_treasury w) sender m ;; Ok (set_treasury w s, subs, None)
    | _ => Err EStd
    end
  else if to =? a_enterprise A then
    match m with
    | ToEnterprise m =>
        '(s, subs) <- enterprise_execute (en_oracle_of n w) (w_enterprise w) sender m ;;
        Ok (set_enterprise w s, subs, None)
    | _ => Err EStd
    end
  else if to =? a_outposts A then
    match m with
    | ToOutposts m =>
        '(s, subs) <- outposts_execute (op_oracle_of w) e (w_outposts w) sender m ;;
        Ok (set_outposts w s, subs, None)
    | _ => Err EStd
    end
  else
    '(x, subs, d) <- x_exec Out w e sender to m coins ;; Ok (set_ext w x, subs, d).

(** The reply entry points; governance, membership, distributor and outposts have none. *)
Definition on_reply (w : world X) (e : env) (self : addr) (id : N) (r : reply_result) : res (world X * list sub_msg) :=
  if self =? a_controller A then
    '(s, subs) <- ctl_reply (ctl_oracle_of w) (a_controller A) (w_ctl w) e id r ;; Ok (set_ctl w s, subs)
  else if self =? a_enterprise A then
    '(s, subs) <- enterprise_reply (w_enterprise w) id r ;; Ok (set_enterprise w s, subs)
  else if self =? a_treasury A then t <- treasury_reply (w_treasury w) id ;; Ok (set_treasury w t, [])
  else if is_dao A self then Err EStd
  else '(x, subs) <- x_reply Out w e self id r ;; Ok (set_ext w x, subs).

(** Migrations. The [migrate] entry points of the controller, membership, distributor, treasury and outposts contracts
    (contracts/enterprise-governance-controller/src/contract.rs:1937-1941, token-staking-membership/src/contract.rs:80-84,
    denom-staking-membership/src/contract.rs:80-84, nft-staking-membership/src/contract.rs:84-88,
    multisig-membership/src/contract.rs:73-77, funds-distributor/src/contract.rs:94-98,
    enterprise-treasury/src/contract.rs:411-415, enterprise-outposts/src/contract.rs:465-469) set the name and version
    of the code, which nothing reads, and nothing else. That of the enterprise contract
    (contracts/enterprise/src/contract.rs:490-560, [enterprise_migrate]) moreover migrates four other contracts; they are
    migrated here at once, without appearing in [w_log]. That of the governance contract
    (contracts/enterprise-governance/src/migration.rs:9-16) replaces its admin; it is not followed. *)
Definition kind_at (w : world X) (a : addr) (k : code_kind) : bool :=
  let member (s : member_state) :=
    match s, k with
    | MToken _, KToken | MDenom _, KDenom | MNft _, KNft | MMultisig _, KMultisig => true
    | _, _ => false
    end in
  match k with
  | KEnterprise => a =? a_enterprise A
  | KController => a =? a_controller A
  | KGovernance => a =? a_governance A
  | KToken | KDenom | KNft | KMultisig =>
      if a =? a_membership A then member (w_member w) else (a =? a_council A) && member (w_council w)
  | KFunds => a =? a_funds A
  | KTreasury => a =? a_treasury A
  | KOutposts => a =? a_outposts A
  end.
(** the code is that which the contract at [a] has in this model *)
Definition same_code (w : world X) (a code : N) : bool :=
  match x_code Out (w_ext w) code with Some k => kind_at w a k | None => false end.
(** it is, and its [migrate] changes nothing *)
Definition plain_migration (w : world X) (a code : N) : bool :=
  same_code w a code && negb (a =? a_governance A) && negb (a =? a_enterprise A).
Definition migrate_to (w : world X) (a code : N) : res (world X) :=
  if plain_migration w a code then Ok w
  else if same_code w a code && (a =? a_enterprise A) then
    subs <- enterprise_migrate (en_oracle_of O w) (w_enterprise w) ;;
    if forallb (fun x => match sm_msg x with WasmMigrate b c _ => plain_migration w b c | _ => false end) subs
    then Ok w else Ok (set_upgraded w)
  else Ok (set_upgraded w).

(** Messages other than contract calls. The migration admin of every contract of the DAO is the enterprise
    contract (contracts/enterprise-factory/src/contract.rs, property C49). *)
Definition other_msg (w : world X) (e : env) (sender : addr) (m : cosmos_msg) : res (world X * option N) :=
  match m with
  | WasmMigrate a code _ =>
      if is_dao A a then _ <- guard (sender =? a_enterprise A) EUnauthorized ;; w <- migrate_to w a code ;; Ok (w, None)
      else '(x, d) <- x_msg Out w e sender m ;; Ok (set_ext w x, d)
  | WasmUpdateAdmin a _ =>
      if is_dao A a then _ <- guard (sender =? a_enterprise A) EUnauthorized ;; Ok (set_upgraded w, None)
      else '(x, d) <- x_msg Out w e sender m ;; Ok (set_ext w x, d)
  | _ => '(x, d) <- x_msg Out w e sender m ;; Ok (set_ext w x, d)
  end.

(** What is to be delivered: one message, or the sub-messages of a contract. *)
Inductive job := JMsg (sender : addr) (m : cosmos_msg) | JSubs (self : addr) (subs : list sub_msg).

(** Delivery, depth first. [n] bounds the nesting; running out of it ([EGas]) fails the whole transaction. *)
Fixpoint go (n : nat) (w : world X) (e : env) (j : job) : res (world X * option N) :=
  match n with
  | O => Err EGas
  | S n =>
      match j with
      | JMsg sender (WasmExecute to m coins) =>
          let w := note w sender (WasmExecute to m coins) in
          x <- x_pay Out (w_ext w) sender to coins ;;
          '(w, subs, d) <- handle n (set_ext w x) e sender to m coins ;;
          '(w, _) <- go n w e (JSubs to subs) ;;
          Ok (w, d)
      | JMsg sender m => other_msg (note w sender m) e sender m
      | JSubs self [] => Ok (w, None)
      | JSubs self (x :: rest) =>
          match go n w e (JMsg self (sm_msg x)), sm_reply x with
          | Ok (w, _), ReplyNever => go n w e (JSubs self rest)
          | Ok (w, d), ReplySuccess id | Ok (w, d), ReplyAlways id =>
              '(w, more) <- on_reply w e self id (ROk d) ;;
              '(w, _) <- go n w e (JSubs self more) ;;
              go n w e (JSubs self rest)
          | Err EGas, _ => Err EGas
          | Err _, ReplyAlways id =>
              '(w, more) <- on_reply w e self id RErr ;;
              '(w, _) <- go n w e (JSubs self more) ;;
              go n w e (JSubs self rest)
          | Err x, _ => Err x
          end
      end
  end.

(** A transaction: a message signed by an account that is none of the DAO's contracts, in some block, with some
    gas. A failing one changes nothing. *)
Record tx := mk_tx { tx_gas : nat; tx_env : env; tx_signer : addr; tx_msg : cosmos_msg }.

Definition world_tx (w : world X) (t : tx) : res (world X) :=
  _ <- guard (negb (is_dao A (tx_signer t))) EUnauthorized ;;
  '(w, _) <- go (tx_gas t) w (tx_env t) (JMsg (tx_signer t) (tx_msg t)) ;;
  Ok w.

Definition world_step (w : world X) (t : tx) : world X :=
  match world_tx w t with Ok w' => w' | Err _ => w end.

Definition world_run (w : world X) (ts : list tx) : world X := fold_left world_step ts w.

End World.
