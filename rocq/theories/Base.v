(** Results, machine arithmetic, decimals. *)
From Coq Require Export NArith List Bool Lia.
Export ListNotations.
#[global] Open Scope N_scope.

(** Error values. Rust error enums are merged into one type; only the distinction the logic or the
    properties need is kept. [EPanic] is a Rust panic (it aborts the call like an [Err]). [EGas] is
    exhaustion of the fuel of the composed model and is never caught. *)
Inductive err :=
| EPanic | EGas | EOverflow | EDivByZero | EInvalidAddr | EStd | ENotFound
| EUnauthorized | ERestricted
| EPollNotFound | EPollInvalid | EPollInProgress | EPollAlreadyEnded | EOutsideVotingPeriod | EThresholdOutOfRange | EPollEndsInPast
| EZeroTotalWeight | EAssetNotWhitelisted | EDuplicateWeight
| EInsufficientStake | EInvalidFunds | EIncorrectAmount | EDuplicateUser | EInvalidArgument
| ENftAlreadyStaked | ENoNftStaked | EIcs721NotTransferred
| ENoSuchProposal | EAlreadyExecuted | ECannotExecuteYet | ENoVotesAvailable | ENoVotingPower
| EInsufficientDeposit | EInvalidDepositType | EWrongProposalType | ENoDaoCouncil | EUnsupportedCouncilAction
| EInvalidGovConfig | EVoteDurationLongerThanUnstaking | EMaxActions | EUnsupportedOperation
| EDuplicateNft | ENoNftOwner | EUnknownReply | EActionsFailed
| EInvalidMigrationStage | EUnsupportedAsset
| EAlreadyInitialized | EMigratingToLowerVersion | EDuplicateMigrateMsg | EVersionExists | EVersionNotFound | ENoVersions
| ETreasuryExists | EProxyExists | ENoDeployment | EInvalidState | ENoInitialMembers
| EInsufficientBalance | ENoSuchContract.

(** [Result<T, E>]. *)
Inductive res (A : Type) :=
| Ok (a : A)
| Err (e : err).
Arguments Ok {A} a.
Arguments Err {A} e.

Definition bind {A B} (r : res A) (f : A -> res B) : res B :=
  match r with Ok a => f a | Err e => Err e end.

Notation "x <- r ;; k" := (bind r (fun x => k))
  (at level 60, r at next level, right associativity).
Notation "' p <- r ;; k" := (bind r (fun x => match x with p => k end))
  (at level 60, p pattern, r at next level, right associativity).

(** [if !cond { return Err(e) }]. *)
Definition guard (b : bool) (e : err) : res unit := if b then Ok tt else Err e.

(** [opt.ok_or(e)?]. *)
Definition ok_or {A} (o : option A) (e : err) : res A :=
  match o with Some a => Ok a | None => Err e end.

(** [unwrap_or]. *)
Definition dflt {A} (d : A) (o : option A) : A := match o with Some a => a | None => d end.

Definition is_some {A} (o : option A) : bool := match o with Some _ => true | None => false end.
Definition is_ok {A} (r : res A) : bool := match r with Ok _ => true | Err _ => false end.

(** Stateful loops: [for x in xs { s = f(s, x)?; }]. *)
Fixpoint fold_res {A S} (f : S -> A -> res S) (s : S) (xs : list A) : res S :=
  match xs with
  | [] => Ok s
  | x :: t => s' <- f s x ;; fold_res f s' t
  end.

(** [iter.map(f).collect::<Result<Vec<_>>>()]. *)
Fixpoint map_res {A B} (f : A -> res B) (xs : list A) : res (list B) :=
  match xs with
  | [] => Ok []
  | x :: t => y <- f x ;; ys <- map_res f t ;; Ok (y :: ys)
  end.

(** * Machine integers *)
Definition M32 : N := 2 ^ 32.
Definition M64 : N := 2 ^ 64.
Definition M128 : N := 2 ^ 128.

(** Native operators; [overflow-checks = false] (/repo/Cargo.toml, [profile.*]) makes them wrap. *)
Definition u64_add (a b : N) : N := (a + b) mod M64.
Definition u64_mul (a b : N) : N := (a * b) mod M64.
Definition u32_add (a b : N) : N := (a + b) mod M32.
Definition u32_sub (a b : N) : N := (a + M32 - b) mod M32.
Definition u128_add (a b : N) : N := (a + b) mod M128.
(** for [a], [b] below 2^128 *)
Definition u128_sub (a b : N) : N := (a + M128 - b) mod M128.

(** cosmwasm-std 1.5.0 [Uint128]/[Uint64] operators: panic on overflow and underflow. *)
Definition uint_add (a b : N) : res N := if a + b <? M128 then Ok (a + b) else Err EPanic.
Definition uint_sub (a b : N) : res N := if b <=? a then Ok (a - b) else Err EPanic.
Definition uint64_add (a b : N) : res N := if a + b <? M64 then Ok (a + b) else Err EPanic.
(** [checked_add], [checked_sub]: an error value instead of a panic. *)
Definition uint_cadd (a b : N) : res N := if a + b <? M128 then Ok (a + b) else Err EOverflow.
Definition uint_csub (a b : N) : res N := if b <=? a then Ok (a - b) else Err EOverflow.

(** * Decimal: 18 fractional digits in a u128 (cosmwasm-std 1.5.0) *)
Definition DEC : N := 10 ^ 18.

(** [Decimal::checked_from_ratio]: numerator * 10^18 / denominator, rounded down. *)
Definition dec_checked_from_ratio (num den : N) : res N :=
  if den =? 0 then Err EDivByZero
  else let q := num * DEC / den in
       if q <? M128 then Ok q else Err EOverflow.

(** [Decimal::from_ratio]: panics where [checked_from_ratio] errs. *)
Definition dec_from_ratio (num den : N) : res N :=
  match dec_checked_from_ratio num den with Ok q => Ok q | Err _ => Err EPanic end.

(** * Time *)
Definition NANOS : N := 1000000000.

(** [Timestamp::plus_nanos]: [Uint64] addition (panics). *)
Definition ts_plus_nanos (t n : N) : res N := uint64_add t n.
(** [Timestamp::plus_seconds]: the factor is native (wraps), the sum panics. *)
Definition ts_plus_seconds (t s : N) : res N := ts_plus_nanos t (u64_mul s NANOS).
(** [Timestamp::seconds]. *)
Definition ts_seconds (t : N) : N := t / NANOS.

(** Block information available to a call ([Env]). *)
Record env := mk_env { e_time : N; e_height : N }.

(** [cw_utils::Duration] and [common::cw::ReleaseAt] (packages/common/src/cw.rs:53-58). *)
Inductive duration := DHeight (h : N) | DTime (s : N).
Inductive release_at := RTimestamp (t : N) | RHeight (h : N).

(** [deps.api.addr_validate]: a partial identity; [0] stands for every malformed string. *)
Definition addr := N.
Definition addr_validate (a : N) : res addr := if a =? 0 then Err EInvalidAddr else Ok a.

(** [common::commons::ModifyValue] (packages/common/src/commons.rs:6-9). *)
Inductive modify (A : Type) := Change (a : A) | NoChange.
Arguments Change {A} a.
Arguments NoChange {A}.

(** A coin: (denom, amount). *)
Definition coin := (N * N)%type.
