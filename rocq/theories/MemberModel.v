(** Model of packages/membership-common, token-staking-impl, denom-staking-impl, nft-staking-impl,
    multisig-membership-impl, and the dispatchers contracts/{token,denom,nft}-staking-membership and
    contracts/multisig-membership (src/contract.rs [execute], which only forward).

    Response attributes are dropped. Claims are stored by id; the user index of the indexed map is
    modelled by filtering on the claim's user (same order: by id). *)
From Verif Require Import Base OMap Assets.

(** * cw-storage-plus [SnapshotItem] with [Strategy::EveryBlock] *)

(** current value; changelog: at each height that saw a save, the value before the first save there *)
Record snap := mk_snap { s_current : option N; s_log : omap (option N) }.

Definition snap_empty : snap := mk_snap None oempty.

(** [SnapshotItem::save] *)
Definition snap_save (s : snap) (v height : N) : snap :=
  {| s_current := Some v;
     s_log := match oget (s_log s) height with
              | Some _ => s_log s
              | None => oset (s_log s) height (s_current s)
              end |}.

(** [SnapshotItem::may_load_at_height]: the first changelog entry at or after the height, else the current value *)
Definition snap_at (s : snap) (height : N) : option N :=
  match filter (fun kv => height <=? fst kv) (elems (s_log s)) with
  | (_, old) :: _ => old
  | [] => s_current s
  end.

(** * packages/membership-common *)

(** enterprise_contract.rs:5, member_weights.rs:4, total_weight.rs:24-35, weight_change_hooks.rs:10 *)
Record members := mk_members {
  m_enterprise : addr;
  m_weights : omap N;
  m_total_height : snap;
  m_total_seconds : snap;
  m_hooks : omap unit
}.

Definition with_member_weights (m : members) (w : omap N) : members :=
  {| m_enterprise := m_enterprise m; m_weights := w; m_total_height := m_total_height m;
     m_total_seconds := m_total_seconds m; m_hooks := m_hooks m |}.
Definition with_hooks (m : members) (h : omap unit) : members :=
  {| m_enterprise := m_enterprise m; m_weights := m_weights m; m_total_height := m_total_height m;
     m_total_seconds := m_total_seconds m; m_hooks := h |}.

(** What the other contracts answer during a call: the enterprise contract's [IsRestrictedUser] and
    [ComponentContracts] (the controller's address), and the ICS721 contract's NFT address for the class. *)
Record member_oracle := mk_moracle {
  mo_restricted : N -> res bool;
  mo_controller : res addr;
  mo_ics721 : res (option addr)
}.

(** packages/membership-common-api/src/api.rs [UserWeightChange] *)
Record weight_change := mk_change { wc_user : addr; wc_old : N; wc_new : N }.

(** Messages a membership contract sends. *)
Inductive member_out :=
| OReport (hook : addr) (changes : list weight_change)
| OPay (what : asset) (to : addr) (amount : N)
| OSendNft (collection : addr) (to : addr) (token : N).

(** enterprise_contract.rs:7-16, the rest empty *)
Definition members_new (enterprise : N) : res members :=
  enterprise <- addr_validate enterprise ;;
  Ok {| m_enterprise := enterprise; m_weights := oempty; m_total_height := snap_empty;
        m_total_seconds := snap_empty; m_hooks := oempty |}.

(** member_weights.rs:6-10 [get_member_weight] *)
Definition member_weight (m : members) (u : addr) : N := ogetN (m_weights m) u.

(** member_weights.rs:12-20 [set_member_weight] *)
Definition set_member_weight (m : members) (u : addr) (w : N) : members :=
  with_member_weights m (oset (m_weights m) u w).

(** member_weights.rs:22-32 [increment_member_weight] *)
Definition increment_member_weight (m : members) (u : addr) (amount : N) : res (members * N) :=
  w <- uint_add (member_weight m u) amount ;;
  Ok (set_member_weight m u w, w).

(** member_weights.rs:34-44 [decrement_member_weight] *)
Definition decrement_member_weight (m : members) (u : addr) (amount : N) : res (members * N) :=
  w <- uint_sub (member_weight m u) amount ;;
  Ok (set_member_weight m u w, w).

(** total_weight.rs:37-41 [load_total_weight] *)
Definition total_weight (m : members) : N := dflt 0 (s_current (m_total_height m)).
(** total_weight.rs:43-47 [load_total_weight_at_height] *)
Definition total_weight_at_height (m : members) (h : N) : N := dflt 0 (snap_at (m_total_height m) h).
(** total_weight.rs:49-53 [load_total_weight_at_time] *)
Definition total_weight_at_time (m : members) (t : N) : N := dflt 0 (snap_at (m_total_seconds m) (ts_seconds t)).

(** total_weight.rs:55-64 [save_total_weight] *)
Definition save_total_weight (m : members) (e : env) (total : N) : members :=
  {| m_enterprise := m_enterprise m; m_weights := m_weights m;
     m_total_height := snap_save (m_total_height m) total (e_height e);
     m_total_seconds := snap_save (m_total_seconds m) total (ts_seconds (e_time e)); m_hooks := m_hooks m |}.

(** total_weight.rs:66-80 [save_initial_total_weight_checkpoints]; checkpoints are (height, total) *)
Definition save_checkpoints (m : members) (by_height by_seconds : list (N * N)) : members :=
  let save s c := snap_save s (snd c) (fst c) in
  {| m_enterprise := m_enterprise m; m_weights := m_weights m;
     m_total_height := fold_left save by_height (m_total_height m);
     m_total_seconds := fold_left save by_seconds (m_total_seconds m); m_hooks := m_hooks m |}.

(** total_weight.rs:8-14 [increment_total_weight] *)
Definition increment_total_weight (m : members) (e : env) (amount : N) : res members :=
  t <- uint_add (total_weight m) amount ;; Ok (save_total_weight m e t).
(** total_weight.rs:16-22 [decrement_total_weight] *)
Definition decrement_total_weight (m : members) (e : env) (amount : N) : res members :=
  t <- uint_sub (total_weight m) amount ;; Ok (save_total_weight m e t).

(** weight_change_hooks.rs:13-23 [save_initial_weight_change_hooks] *)
Definition save_hooks (m : members) (hooks : list N) : res members :=
  fold_res (fun m h => h <- addr_validate h ;; Ok (with_hooks m (oset (m_hooks m) h tt))) m hooks.

(** validate.rs:29-53 [enterprise_governance_controller_only] with no explicit sender *)
Definition controller_only (o : member_oracle) (sender : addr) : res unit :=
  c <- mo_controller o ;; guard (sender =? c) EUnauthorized.

(** validate.rs:12-25 [validate_user_not_restricted] *)
Definition not_restricted (o : member_oracle) (u : N) : res unit :=
  r <- mo_restricted o u ;; guard (negb r) ERestricted.

(** weight_change_hooks.rs:26-40 [add_weight_change_hook] *)
Definition add_hook (o : member_oracle) (m : members) (sender : addr) (h : N) : res members :=
  _ <- controller_only o sender ;;
  h <- addr_validate h ;;
  Ok (with_hooks m (oset (m_hooks m) h tt)).

(** weight_change_hooks.rs:43-57 [remove_weight_change_hook] *)
Definition remove_hook (o : member_oracle) (m : members) (sender : addr) (h : N) : res members :=
  _ <- controller_only o sender ;;
  h <- addr_validate h ;;
  Ok (with_hooks m (odel (m_hooks m) h)).

(** weight_change_hooks.rs:60-75 [report_weight_change_submsgs] *)
Definition report (m : members) (changes : list weight_change) : list member_out :=
  map (fun h => OReport h changes) (okeys (m_hooks m)).

(** packages/*-staking-impl/src/execute.rs [calculate_release_at] (token 178-186, denom 98-106, nft 178-186):
    the height is added natively (wraps) *)
Definition calculate_release_at (e : env) (period : duration) : res release_at :=
  match period with
  | DHeight h => Ok (RHeight (u64_add (e_height e) h))
  | DTime s => t <- ts_plus_seconds (e_time e) s ;; Ok (RTimestamp t)
  end.

(** packages/*-staking-impl/src/claims.rs:55-60 [is_releasable] *)
Definition is_released (e : env) (r : release_at) : bool :=
  match r with RTimestamp t => t <=? e_time e | RHeight h => h <=? e_height e end.

(** * packages/token-staking-impl and packages/denom-staking-impl

    The two differ in how stakes come in and in the payment message; everything else is textually the same.
    The staked asset is [Cw20 token_contract] for the first, [Native denom] for the second. *)

(** claims.rs, api [TokenClaim] / [DenomClaim] *)
Record claim := mk_claim { cl_id : N; cl_user : addr; cl_amount : N; cl_release : release_at }.

(** config.rs:6-12, claims.rs:8 and 23-32 *)
Record staking := mk_staking {
  st_members : members;
  st_asset : asset;
  st_period : duration;
  st_next_claim : N;
  st_claims : omap claim
}.

Definition st_with_members (s : staking) (m : members) : staking :=
  {| st_members := m; st_asset := st_asset s; st_period := st_period s;
     st_next_claim := st_next_claim s; st_claims := st_claims s |}.
Definition st_with_period (s : staking) (p : duration) : staking :=
  {| st_members := st_members s; st_asset := st_asset s; st_period := p;
     st_next_claim := st_next_claim s; st_claims := st_claims s |}.
Definition st_with_claims (s : staking) (n : N) (c : omap claim) : staking :=
  {| st_members := st_members s; st_asset := st_asset s; st_period := st_period s;
     st_next_claim := n; st_claims := c |}.

(** token-staking-impl/src/instantiate.rs:10-35 *)
Definition token_instantiate (e : env) (enterprise token : N) (period : duration)
    (by_height by_seconds : list (N * N)) (hooks : list N) : res staking :=
  m <- members_new enterprise ;;
  token <- addr_validate token ;;
  let m := save_total_weight (save_checkpoints m by_height by_seconds) e 0 in
  m <- save_hooks m hooks ;;
  Ok {| st_members := m; st_asset := Cw20 token; st_period := period; st_next_claim := 0; st_claims := oempty |}.

(** denom-staking-impl/src/instantiate.rs:10-27 *)
Definition denom_instantiate (e : env) (enterprise denom : N) (period : duration) (hooks : list N) : res staking :=
  m <- members_new enterprise ;;
  m <- save_hooks (save_total_weight m e 0) hooks ;;
  Ok {| st_members := m; st_asset := Native denom; st_period := period; st_next_claim := 0; st_claims := oempty |}.

(** claims.rs:34-53 [add_claim]; [Uint64] addition panics *)
Definition add_claim (s : staking) (u : addr) (amount : N) (r : release_at) : res staking :=
  next <- uint64_add (st_next_claim s) 1 ;;
  let id := st_next_claim s in
  Ok (st_with_claims s next (oset (st_claims s) id (mk_claim id u amount r))).

(** the state change shared by [stake_token] (token execute.rs:42-69) and [stake_denom] (denom execute.rs:21-59) *)
Definition add_stake (s : staking) (e : env) (u : addr) (amount : N) : res (staking * list member_out) :=
  let m := st_members s in
  let old := member_weight m u in
  '(m, new) <- increment_member_weight m u amount ;;
  m <- increment_total_weight m e amount ;;
  Ok (st_with_members s m, report m [mk_change u old new]).

(** token execute.rs:42-69 [stake_token] *)
Definition stake_token (o : member_oracle) (s : staking) (e : env) (amount user : N) : res (staking * list member_out) :=
  _ <- not_restricted o user ;;
  u <- addr_validate user ;;
  add_stake s e u amount.

(** denom execute.rs:21-59 [stake_denom] *)
Definition stake_denom (o : member_oracle) (s : staking) (e : env) (sender : addr) (coins : list coin) (user : option N)
    : res (staking * list member_out) :=
  match coins with
  | [(d, amount)] =>
      _ <- guard (asset_eqb (st_asset s) (Native d)) EInvalidFunds ;;
      u <- (match user with Some u => addr_validate u | None => Ok sender end) ;;
      _ <- not_restricted o u ;;
      add_stake s e u amount
  | _ => Err EInvalidFunds
  end.

(** token execute.rs:73-117 [add_stakes]: loop iteration; carries members, reported changes and the sum *)
Definition add_stakes_one (o : member_oracle) (acc : members * list weight_change * N) (us : N * N)
    : res (members * list weight_change * N) :=
  let '(m, changes, sum) := acc in
  let '(user, amount) := us in
  if amount =? 0 then Ok acc
  else
    _ <- not_restricted o user ;;
    u <- addr_validate user ;;
    let old := member_weight m u in
    new <- uint_cadd old amount ;;
    sum <- uint_cadd sum amount ;;
    Ok (set_member_weight m u new, changes ++ [mk_change u old new], sum).

Definition add_stakes (o : member_oracle) (s : staking) (e : env) (amount : N) (stakers : list (N * N))
    : res (staking * list member_out) :=
  '(m, changes, sum) <- fold_res (add_stakes_one o) (st_members s, [], 0) stakers ;;
  _ <- guard (sum =? amount) EIncorrectAmount ;;
  m <- increment_total_weight m e sum ;;
  Ok (st_with_members s m, report m changes).

(** token execute.rs:119-139 [add_token_claims] *)
Definition add_claims (s : staking) (amount : N) (claims : list (N * N * release_at)) : res staking :=
  '(s, total) <- fold_res (fun st c =>
      let '(s, total) := st in
      let '(user, a, r) := c in
      u <- addr_validate user ;;
      s <- add_claim s u a r ;;
      total <- uint_add total a ;;
      Ok (s, total)) (s, 0) claims ;;
  _ <- guard (total =? amount) EIncorrectAmount ;;
  Ok s.

(** token execute.rs:142-175, denom execute.rs:62-95 [unstake] *)
Definition unstake (s : staking) (e : env) (sender : addr) (amount : N) : res (staking * list member_out) :=
  let m := st_members s in
  let old := member_weight m sender in
  _ <- guard (amount <=? old) EInsufficientStake ;;
  '(m, new) <- decrement_member_weight m sender amount ;;
  m <- decrement_total_weight m e amount ;;
  r <- calculate_release_at e (st_period s) ;;
  s <- add_claim (st_with_members s m) sender amount r ;;
  Ok (s, report m [mk_change sender old new]).

(** claims.rs:62-73 [get_claims] *)
Definition claims_of (s : staking) (u : addr) : list claim :=
  filter (fun c => cl_user c =? u) (ovals (st_claims s)).

(** claims.rs:75-96 [get_releasable_claims] *)
Definition releasable_claims (s : staking) (e : env) (u : addr) : list claim :=
  filter (fun c => is_released e (cl_release c)) (claims_of s u).

(** token execute.rs:208-244, denom execute.rs:128-160 [claim] *)
Definition claim_stake (s : staking) (e : env) (sender : addr) (user : option N) : res (staking * list member_out) :=
  u <- (match user with Some u => addr_validate u | None => Ok sender end) ;;
  _ <- guard (sender =? u) EUnauthorized ;;
  '(claims, total) <- fold_res (fun st c =>
      let '(claims, total) := st in
      total <- uint_add total (cl_amount c) ;;
      Ok (odel claims (cl_id c), total)) (st_claims s, 0) (releasable_claims s e u) ;;
  Ok (st_with_claims s (st_next_claim s) claims, [OPay (st_asset s) u total]).

(** token execute.rs:189-205, denom execute.rs:109-125 [update_unlocking_period] *)
Definition update_period (o : member_oracle) (s : staking) (sender : addr) (p : option duration) : res staking :=
  _ <- controller_only o sender ;;
  Ok (match p with Some p => st_with_period s p | None => s end).

(** token-staking-api/src/msg.rs [Cw20HookMsg]; [HUnknown]: anything else *)
Inductive token_hook :=
| HStake (user : N)
| HAddStakes (stakers : list (N * N))
| HAddClaims (claims : list (N * N * release_at))
| HUnknown.

Inductive stake_msg :=
| SUnstake (amount : N)
| SClaim (user : option N)
| SUpdatePeriod (p : option duration)
| SAddHook (h : N)
| SRemoveHook (h : N).

(** token execute.rs:26-40 [receive_cw20] *)
Definition token_receive (o : member_oracle) (s : staking) (e : env) (sender : addr) (amount : N) (h : token_hook)
    : res (staking * list member_out) :=
  _ <- guard (asset_eqb (st_asset s) (Cw20 sender)) EUnauthorized ;;
  match h with
  | HStake user => stake_token o s e amount user
  | HAddStakes l => add_stakes o s e amount l
  | HAddClaims l => s' <- add_claims s amount l ;; Ok (s', [])
  | HUnknown => Err EStd
  end.

Definition stake_execute (o : member_oracle) (s : staking) (e : env) (sender : addr) (msg : stake_msg)
    : res (staking * list member_out) :=
  match msg with
  | SUnstake a => unstake s e sender a
  | SClaim u => claim_stake s e sender u
  | SUpdatePeriod p => s' <- update_period o s sender p ;; Ok (s', [])
  | SAddHook h => m <- add_hook o (st_members s) sender h ;; Ok (st_with_members s m, [])
  | SRemoveHook h => m <- remove_hook o (st_members s) sender h ;; Ok (st_with_members s m, [])
  end.

(** contracts/token-staking-membership/src/contract.rs [execute] *)
Inductive token_msg := TReceive (amount : N) (h : token_hook) | TCommon (m : stake_msg).
Definition token_execute (o : member_oracle) (s : staking) (e : env) (sender : addr) (msg : token_msg)
    : res (staking * list member_out) :=
  match msg with
  | TReceive amount h => token_receive o s e sender amount h
  | TCommon m => stake_execute o s e sender m
  end.

(** contracts/denom-staking-membership/src/contract.rs [execute] *)
Inductive denom_msg := DStake (user : option N) | DCommon (m : stake_msg).
Definition denom_execute (o : member_oracle) (s : staking) (e : env) (sender : addr) (coins : list coin) (msg : denom_msg)
    : res (staking * list member_out) :=
  match msg with
  | DStake user => stake_denom o s e sender coins user
  | DCommon m => stake_execute o s e sender m
  end.

(** * packages/nft-staking-impl *)

(** config.rs:14-18 [NftContractAddr]; the class id only parametrises the ICS721 query *)
Inductive nft_contract := NCw721 (a : addr) | NIcs721 (a : addr) (class_id : N).

(** claims.rs, api [NftClaim] *)
Record nft_claim := mk_nft_claim { nc_id : N; nc_user : addr; nc_tokens : list N; nc_release : release_at }.

(** config.rs:8-12, nft_staking.rs:6-33 (token id -> staker), claims.rs *)
Record nft_staking := mk_nft_staking {
  ns_members : members;
  ns_contract : nft_contract;
  ns_period : duration;
  ns_stakes : omap addr;
  ns_next_claim : N;
  ns_claims : omap nft_claim
}.

Definition ns_with_members (s : nft_staking) (m : members) : nft_staking :=
  {| ns_members := m; ns_contract := ns_contract s; ns_period := ns_period s; ns_stakes := ns_stakes s;
     ns_next_claim := ns_next_claim s; ns_claims := ns_claims s |}.
Definition ns_with_contract (s : nft_staking) (c : nft_contract) : nft_staking :=
  {| ns_members := ns_members s; ns_contract := c; ns_period := ns_period s; ns_stakes := ns_stakes s;
     ns_next_claim := ns_next_claim s; ns_claims := ns_claims s |}.
Definition ns_with_period (s : nft_staking) (p : duration) : nft_staking :=
  {| ns_members := ns_members s; ns_contract := ns_contract s; ns_period := p; ns_stakes := ns_stakes s;
     ns_next_claim := ns_next_claim s; ns_claims := ns_claims s |}.
Definition ns_with_stakes (s : nft_staking) (st : omap addr) : nft_staking :=
  {| ns_members := ns_members s; ns_contract := ns_contract s; ns_period := ns_period s; ns_stakes := st;
     ns_next_claim := ns_next_claim s; ns_claims := ns_claims s |}.
Definition ns_with_claims (s : nft_staking) (n : N) (c : omap nft_claim) : nft_staking :=
  {| ns_members := ns_members s; ns_contract := ns_contract s; ns_period := ns_period s; ns_stakes := ns_stakes s;
     ns_next_claim := n; ns_claims := c |}.

(** instantiate.rs:11-44 *)
Definition nft_instantiate (e : env) (enterprise : N) (c : nft_contract) (period : duration)
    (by_height by_seconds : list (N * N)) (hooks : list N) : res nft_staking :=
  m <- members_new enterprise ;;
  c <- (match c with
        | NCw721 a => a <- addr_validate a ;; Ok (NCw721 a)
        | NIcs721 a i => a <- addr_validate a ;; Ok (NIcs721 a i)
        end) ;;
  m <- save_hooks (save_total_weight (save_checkpoints m by_height by_seconds) e 0) hooks ;;
  Ok {| ns_members := m; ns_contract := c; ns_period := period; ns_stakes := oempty;
        ns_next_claim := 0; ns_claims := oempty |}.

(** claims.rs:34-53 [add_claim] *)
Definition add_nft_claim (s : nft_staking) (u : addr) (tokens : list N) (r : release_at) : res nft_staking :=
  next <- uint64_add (ns_next_claim s) 1 ;;
  let id := ns_next_claim s in
  Ok (ns_with_claims s next (oset (ns_claims s) id (mk_nft_claim id u tokens r))).

(** execute.rs:68-106 [stake_nft] *)
Definition stake_nft (o : member_oracle) (s : nft_staking) (e : env) (token user : N) : res (nft_staking * list member_out) :=
  _ <- not_restricted o user ;;
  _ <- guard (negb (ohas (ns_stakes s) token)) ENftAlreadyStaked ;;
  u <- addr_validate user ;;
  let s := ns_with_stakes s (oset (ns_stakes s) token u) in
  let old := member_weight (ns_members s) u in
  '(m, new) <- increment_member_weight (ns_members s) u 1 ;;
  m <- increment_total_weight m e 1 ;;
  Ok (ns_with_members s m, report m [mk_change u old new]).

(** nft-staking-api/src/msg.rs [Cw721HookMsg]; [NUnknown]: anything else *)
Inductive nft_hook := NStake (user : N) | NAddClaim (user : N) (r : release_at) | NUnknown.

(** execute.rs:26-66 [receive_nft], 108-123 [add_nft_claim] *)
Definition receive_nft (o : member_oracle) (s : nft_staking) (e : env) (sender : addr) (token : N) (h : nft_hook)
    : res (nft_staking * list member_out) :=
  '(s, c) <- (match ns_contract s with
              | NCw721 a => Ok (s, a)
              | NIcs721 _ _ =>
                  found <- mo_ics721 o ;;
                  a <- ok_or found EIcs721NotTransferred ;;
                  Ok (ns_with_contract s (NCw721 a), a)
              end) ;;
  _ <- guard (sender =? c) EUnauthorized ;;
  match h with
  | NStake user => stake_nft o s e token user
  | NAddClaim user r => u <- addr_validate user ;; s' <- add_nft_claim s u [token] r ;; Ok (s', [])
  | NUnknown => Err EStd
  end.

(** execute.rs:126-175 [unstake]: loop iteration and whole *)
Definition unstake_nft_one (u : addr) (stakes : omap addr) (token : N) : res (omap addr) :=
  staker <- ok_or (oget stakes token) ENoNftStaked ;;
  _ <- guard (staker =? u) EUnauthorized ;;
  Ok (odel stakes token).

Definition unstake_nft (s : nft_staking) (e : env) (sender : addr) (tokens : list N) : res (nft_staking * list member_out) :=
  let old := member_weight (ns_members s) sender in
  stakes <- fold_res (unstake_nft_one sender) (ns_stakes s) tokens ;;
  let amount := N.of_nat (length tokens) in
  '(m, new) <- decrement_member_weight (ns_members s) sender amount ;;
  m <- decrement_total_weight m e amount ;;
  r <- calculate_release_at e (ns_period s) ;;
  s <- add_nft_claim (ns_with_members (ns_with_stakes s stakes) m) sender tokens r ;;
  Ok (s, report m [mk_change sender old new]).

(** claims.rs:62-76, 78-99 *)
Definition nft_claims_of (s : nft_staking) (u : addr) : list nft_claim :=
  filter (fun c => nc_user c =? u) (ovals (ns_claims s)).
Definition releasable_nft_claims (s : nft_staking) (e : env) (u : addr) : list nft_claim :=
  filter (fun c => is_released e (nc_release c)) (nft_claims_of s u).

(** execute.rs:208-249 [claim]; config.rs:22-30 [require_cw721_addr] *)
Definition claim_nft (s : nft_staking) (e : env) (sender : addr) (user : option N) : res (nft_staking * list member_out) :=
  c <- (match ns_contract s with NCw721 a => Ok a | NIcs721 _ _ => Err EIcs721NotTransferred end) ;;
  u <- (match user with Some u => addr_validate u | None => Ok sender end) ;;
  _ <- guard (sender =? u) EUnauthorized ;;
  let rel := releasable_nft_claims s e u in
  Ok (ns_with_claims s (ns_next_claim s) (fold_left (fun m cl => odel m (nc_id cl)) rel (ns_claims s)),
      map (fun t => OSendNft c u t) (flat_map nc_tokens rel)).

(** execute.rs:189-205 [update_unlocking_period] *)
Definition nft_update_period (o : member_oracle) (s : nft_staking) (sender : addr) (p : option duration) : res nft_staking :=
  _ <- controller_only o sender ;;
  Ok (match p with Some p => ns_with_period s p | None => s end).

(** contracts/nft-staking-membership/src/contract.rs [execute] *)
Inductive nft_msg :=
| NReceive (token : N) (h : nft_hook)
| NUnstake (tokens : list N)
| NClaim (user : option N)
| NUpdatePeriod (p : option duration)
| NAddHook (h : N)
| NRemoveHook (h : N).

Definition nft_execute (o : member_oracle) (s : nft_staking) (e : env) (sender : addr) (msg : nft_msg)
    : res (nft_staking * list member_out) :=
  match msg with
  | NReceive t h => receive_nft o s e sender t h
  | NUnstake ts => unstake_nft s e sender ts
  | NClaim u => claim_nft s e sender u
  | NUpdatePeriod p => s' <- nft_update_period o s sender p ;; Ok (s', [])
  | NAddHook h => m <- add_hook o (ns_members s) sender h ;; Ok (ns_with_members s m, [])
  | NRemoveHook h => m <- remove_hook o (ns_members s) sender h ;; Ok (ns_with_members s m, [])
  end.

(** * packages/multisig-membership-impl *)

Fixpoint nodupb (l : list N) : bool :=
  match l with
  | [] => true
  | a :: t => negb (existsb (N.eqb a) t) && nodupb t
  end.

(** validate.rs:10-37 [dedup_user_weights]: the list itself, or an error if a user occurs twice *)
Definition dedup_user_weights (l : list (N * N)) : res (list (N * N)) :=
  l <- map_res (fun uw => u <- addr_validate (fst uw) ;; Ok (u, snd uw)) l ;;
  _ <- guard (nodupb (map fst l)) EDuplicateUser ;;
  Ok l.

(** instantiate.rs:12-52 *)
Definition multisig_instantiate (e : env) (enterprise : N) (initial : option (list (N * N)))
    (by_height by_seconds : list (N * N)) (hooks : list N) : res members :=
  m <- members_new enterprise ;;
  let m := save_checkpoints m by_height by_seconds in
  m <- (match initial with
        | Some l =>
            l <- dedup_user_weights l ;;
            '(m, total) <- fold_res (fun mt uw =>
                let '(m, total) := mt in
                t1 <- uint_sub total (member_weight m (fst uw)) ;;
                t2 <- uint_add t1 (snd uw) ;;
                Ok (set_member_weight m (fst uw) (snd uw), t2)) (m, 0) l ;;
            Ok (save_total_weight m e total)
        | None => Ok (save_total_weight m e 0)
        end) ;;
  save_hooks m hooks.

(** execute.rs:14-48 [update_members] *)
Definition update_members_one (acc : members * N * list weight_change) (uw : N * N)
    : res (members * N * list weight_change) :=
  let '(m, total, changes) := acc in
  let '(u, w) := uw in
  let old := member_weight m u in
  t1 <- uint_sub total old ;;
  t2 <- uint_add t1 w ;;
  Ok (set_member_weight m u w, t2, changes ++ [mk_change u old w]).

Definition update_members (o : member_oracle) (m : members) (e : env) (sender : addr) (l : list (N * N))
    : res (members * list member_out) :=
  _ <- controller_only o sender ;;
  l <- dedup_user_weights l ;;
  '(m, total, changes) <- fold_res update_members_one (m, total_weight m, []) l ;;
  let m := save_total_weight m e total in
  Ok (m, report m changes).

(** execute.rs:51-87 [set_members] *)
Definition set_members_one (old : omap N) (acc : members * N * list weight_change) (uw : N * N)
    : res (members * N * list weight_change) :=
  let '(m, total, changes) := acc in
  let '(u, w) := uw in
  t <- uint_add total w ;;
  Ok (set_member_weight m u w, t, changes ++ [mk_change u (ogetN old u) w]).

Definition set_members (o : member_oracle) (m : members) (e : env) (sender : addr) (l : list (N * N))
    : res (members * list member_out) :=
  _ <- controller_only o sender ;;
  let old := m_weights m in
  l <- dedup_user_weights l ;;
  '(m, total, changes) <- fold_res (set_members_one old) (with_member_weights m oempty, 0, []) l ;;
  let m := save_total_weight m e total in
  Ok (m, report m changes).

(** contracts/multisig-membership/src/contract.rs [execute] *)
Inductive multisig_msg :=
| MUpdateMembers (l : list (N * N))
| MSetMembers (l : list (N * N))
| MAddHook (h : N)
| MRemoveHook (h : N).

Definition multisig_execute (o : member_oracle) (m : members) (e : env) (sender : addr) (msg : multisig_msg)
    : res (members * list member_out) :=
  match msg with
  | MUpdateMembers l => update_members o m e sender l
  | MSetMembers l => set_members o m e sender l
  | MAddHook h => m' <- add_hook o m sender h ;; Ok (m', [])
  | MRemoveHook h => m' <- remove_hook o m sender h ;; Ok (m', [])
  end.

(** * Queries common to all: packages/*/src/query.rs *)

Inductive expiration := AtHeight (h : N) | AtTime (t : N) | Never.

(** token query.rs:47-60 (the others identical): [query_total_weight] *)
Definition query_total_weight (m : members) (x : expiration) : N :=
  match x with
  | AtHeight h => total_weight_at_height m h
  | AtTime t => total_weight_at_time m t
  | Never => total_weight m
  end.

(** token query.rs:33-45: [query_user_weight] *)
Definition query_user_weight (m : members) (u : N) : res N := u <- addr_validate u ;; Ok (member_weight m u).

(** token query.rs:80-105: [query_members], default 50, at most 100 per page *)
Definition query_members (m : members) (start_after limit : option N) : res (list (N * N)) :=
  st <- (match start_after with Some a => a <- addr_validate a ;; Ok (Some a) | None => Ok None end) ;;
  Ok (take (N.min (dflt 50 limit) 100) (orange (m_weights m) st)).

(** nft query.rs:80-108 [query_user_nft_stake]: the token ids *)
Definition query_user_nfts (s : nft_staking) (u : N) (start_after limit : option N) : res (list N) :=
  u <- addr_validate u ;;
  Ok (map fst (take (N.min (dflt 50 limit) 100) (filter (fun ts => snd ts =? u) (orange (ns_stakes s) start_after)))).

(** nft query.rs:172-191 [query_staked_nfts] *)
Definition query_staked_nfts (s : nft_staking) (start_after limit : option N) : list N :=
  map fst (take (N.min (dflt 50 limit) 100) (orange (ns_stakes s) start_after)).

(** * The four contracts together *)

(** packages/*-api/src/msg.rs [InstantiateMsg] *)
Inductive member_init :=
| IToken (enterprise token : N) (period : duration) (by_height by_seconds : list (N * N)) (hooks : list N)
| IDenom (enterprise denom : N) (period : duration) (hooks : list N)
| INft (enterprise : N) (c : nft_contract) (period : duration) (by_height by_seconds : list (N * N)) (hooks : list N)
| IMultisig (enterprise : N) (initial : option (list (N * N))) (by_height by_seconds : list (N * N)) (hooks : list N).

Inductive member_state :=
| MToken (s : staking)
| MDenom (s : staking)
| MNft (s : nft_staking)
| MMultisig (m : members).

Inductive member_msg :=
| TokenMsg (m : token_msg)
| DenomMsg (m : denom_msg)
| NftMsg (m : nft_msg)
| MultisigMsg (m : multisig_msg).

Definition members_of (st : member_state) : members :=
  match st with
  | MToken s | MDenom s => st_members s
  | MNft s => ns_members s
  | MMultisig m => m
  end.

Definition member_instantiate (e : env) (i : member_init) : res member_state :=
  match i with
  | IToken en t p bh bs hs => s <- token_instantiate e en t p bh bs hs ;; Ok (MToken s)
  | IDenom en d p hs => s <- denom_instantiate e en d p hs ;; Ok (MDenom s)
  | INft en c p bh bs hs => s <- nft_instantiate e en c p bh bs hs ;; Ok (MNft s)
  | IMultisig en ini bh bs hs => m <- multisig_instantiate e en ini bh bs hs ;; Ok (MMultisig m)
  end.

(** A message for another kind of contract does not parse. *)
Definition member_execute (o : member_oracle) (st : member_state) (e : env) (sender : addr) (coins : list coin)
    (msg : member_msg) : res (member_state * list member_out) :=
  match st, msg with
  | MToken s, TokenMsg m => '(s, outs) <- token_execute o s e sender m ;; Ok (MToken s, outs)
  | MDenom s, DenomMsg m => '(s, outs) <- denom_execute o s e sender coins m ;; Ok (MDenom s, outs)
  | MNft s, NftMsg m => '(s, outs) <- nft_execute o s e sender m ;; Ok (MNft s, outs)
  | MMultisig s, MultisigMsg m => '(s, outs) <- multisig_execute o s e sender m ;; Ok (MMultisig s, outs)
  | _, _ => Err EStd
  end.

(** One incoming call; a failed call leaves the state as it was. *)
Record member_call := mk_mcall { mc_oracle : member_oracle; mc_env : env; mc_sender : addr; mc_coins : list coin; mc_msg : member_msg }.

Definition member_step (st : member_state) (c : member_call) : member_state * list member_out :=
  match member_execute (mc_oracle c) st (mc_env c) (mc_sender c) (mc_coins c) (mc_msg c) with
  | Ok r => r
  | Err _ => (st, [])
  end.
