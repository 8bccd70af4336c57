(** Model of contracts/funds-distributor.

    The Rust code has two textually identical copies of the reward bookkeeping, one keyed by denom and
    one by cw20 address; [rewards] models one copy and the state holds two of them. Distribution maps
    keyed by (user, asset) are nested maps. Response attributes are dropped. *)
From Verif Require Import Base OMap Assets.

(** native_distributions.rs:11-18 / cw20_distributions.rs:11-18: (user_index, pending_rewards) *)
Record distribution := mk_distribution { d_index : N; d_pending : N }.

(** state.rs:13, native_distributions.rs:31-42 (native); state.rs:18, cw20_distributions.rs:31-42 (cw20) *)
Record rewards := mk_rewards { r_global : omap N; r_dists : omap (omap distribution) }.

(** state.rs:4-8, user_weights.rs:18-24, eligibility.rs:16 *)
Record funds := mk_funds {
  f_admin : addr;
  f_enterprise : addr;
  f_total : N;
  f_min : N;
  f_weights : omap N;
  f_eff : omap N;
  f_native : rewards;
  f_cw20 : rewards
}.

Definition user_dists (r : rewards) (u : addr) : omap distribution := dflt oempty (oget (r_dists r) u).
Definition get_dist (r : rewards) (u : addr) (a : N) : option distribution := oget (user_dists r u) a.
Definition set_dist (r : rewards) (u : addr) (a : N) (d : distribution) : rewards :=
  {| r_global := r_global r; r_dists := oset (r_dists r) u (oset (user_dists r u) a d) |}.
Definition set_global (r : rewards) (a g : N) : rewards :=
  {| r_global := oset (r_global r) a g; r_dists := r_dists r |}.

(** rewards.rs:31-41 [calculate_new_user_reward]; Decimal's denominator is 10^18 *)
Definition new_user_reward (global index weight : N) : res N :=
  diff <- uint_csub global index ;;
  let q := weight * diff / DEC in
  _ <- guard (q <? M128) EOverflow ;;
  Ok q.

(** rewards.rs:15-27 [calculate_user_reward] *)
Definition user_reward (global : N) (d : option distribution) (weight : N) : res N :=
  let '(index, pending) := match d with Some d => (d_index d, d_pending d) | None => (0, 0) end in
  r <- new_user_reward global index weight ;;
  uint_cadd r pending.

(** native_distributions.rs:55-83 / cw20_distributions.rs:55-83: one loop iteration and the loop *)
Definition settle_one (u : addr) (weight : N) (r : rewards) (ag : N * N) : res rewards :=
  let '(a, g) := ag in
  reward <- user_reward g (get_dist r u a) weight ;;
  Ok (set_dist r u a (mk_distribution g reward)).

Definition settle (r : rewards) (u : addr) (weight : N) : res rewards :=
  fold_res (settle_one u weight) r (elems (r_global r)).

(** user_weights.rs:145-191 [initialize_user_indices]: one loop iteration and one of its two loops *)
Definition init_one (u : addr) (r : rewards) (ag : N * N) : rewards :=
  let '(a, g) := ag in
  match get_dist r u a with
  | None => set_dist r u a (mk_distribution g 0)
  | Some d => set_dist r u a d
  end.

Definition init_user (r : rewards) (u : addr) : rewards := fold_left (init_one u) (elems (r_global r)) r.

(** user_weights.rs:133-139 [calculate_effective_weight] *)
Definition effective_weight (weight minimum : N) : N := if minimum <=? weight then weight else 0.

Definition with_rewards (f : funds) (n c : rewards) : funds :=
  {| f_admin := f_admin f; f_enterprise := f_enterprise f; f_total := f_total f; f_min := f_min f;
     f_weights := f_weights f; f_eff := f_eff f; f_native := n; f_cw20 := c |}.

Definition with_weights (f : funds) (w e : omap N) : funds :=
  {| f_admin := f_admin f; f_enterprise := f_enterprise f; f_total := f_total f; f_min := f_min f;
     f_weights := w; f_eff := e; f_native := f_native f; f_cw20 := f_cw20 f |}.

Definition with_total (f : funds) (t : N) : funds :=
  {| f_admin := f_admin f; f_enterprise := f_enterprise f; f_total := t; f_min := f_min f;
     f_weights := f_weights f; f_eff := f_eff f; f_native := f_native f; f_cw20 := f_cw20 f |}.

Definition with_min (f : funds) (m : N) : funds :=
  {| f_admin := f_admin f; f_enterprise := f_enterprise f; f_total := f_total f; f_min := m;
     f_weights := f_weights f; f_eff := f_eff f; f_native := f_native f; f_cw20 := f_cw20 f |}.

(** user_weights.rs:30-60 [save_initial_weights]: loop iteration; the running total is carried along *)
Definition save_initial_one (ft : funds * N) (uw : N * N) : res (funds * N) :=
  let '(f, total) := ft in
  let '(u, w) := uw in
  u <- addr_validate u ;;
  _ <- guard (negb (ohas (f_weights f) u || ohas (f_eff f) u)) EDuplicateWeight ;;
  let e := effective_weight w (f_min f) in
  total' <- uint_add total e ;;
  Ok (with_weights f (oset (f_weights f) u w) (oset (f_eff f) u e), total').

(** contract.rs:23-47 [instantiate] *)
Definition funds_instantiate (admin enterprise : N) (min : option N) (initial : list (N * N)) : res funds :=
  admin <- addr_validate admin ;;
  enterprise <- addr_validate enterprise ;;
  let f := {| f_admin := admin; f_enterprise := enterprise; f_total := 0; f_min := dflt 0 min;
              f_weights := oempty; f_eff := oempty;
              f_native := mk_rewards oempty oempty; f_cw20 := mk_rewards oempty oempty |} in
  '(f, total) <- fold_res save_initial_one (f, 0) initial ;;
  Ok (with_total f total).

(** user_weights.rs:77-129 [update_user_weights_checked]: loop iteration *)
Definition update_weight_one (ft : funds * N) (uw : N * N) : res (funds * N) :=
  let '(f, total) := ft in
  let '(u, w) := uw in
  u <- addr_validate u ;;
  let old := oget (f_eff f) u in
  f <- (match old with
        | None => Ok (with_rewards f (init_user (f_native f) u) (init_user (f_cw20 f) u))
        | Some o => n <- settle (f_native f) u o ;; c <- settle (f_cw20 f) u o ;; Ok (with_rewards f n c)
        end) ;;
  let e := effective_weight w (f_min f) in
  let f := with_weights f (oset (f_weights f) u w) (oset (f_eff f) u e) in
  t1 <- uint_sub total (dflt 0 old) ;;
  t2 <- uint_add t1 e ;;
  Ok (f, t2).

Definition update_user_weights (f : funds) (sender : addr) (changes : list (N * N)) : res funds :=
  _ <- guard (sender =? f_admin f) EUnauthorized ;;
  '(f, total) <- fold_res update_weight_one (f, f_total f) changes ;;
  Ok (with_total f total).

(** eligibility.rs:43-116 [update_minimum_eligible_weight]: loop iteration *)
Definition update_min_one (use_actual : bool) (ft : funds * N) (uw : N * N) : res (funds * N) :=
  let '(f, total) := ft in
  let '(u, w) := uw in
  let old := ogetN (f_eff f) u in
  n <- settle (f_native f) u old ;;
  c <- settle (f_cw20 f) u old ;;
  let e := if use_actual then w else 0 in
  let f := with_weights (with_rewards f n c) (f_weights f) (oset (f_eff f) u e) in
  t1 <- uint_sub total old ;;
  t2 <- uint_add t1 e ;;
  Ok (f, t2).

(** eligibility.rs:18-37 [execute_update_minimum_eligible_weight], 43-116 *)
Definition update_minimum (f : funds) (sender : addr) (new_min : N) : res funds :=
  _ <- guard (sender =? f_admin f) EUnauthorized ;;
  let old_min := f_min f in
  if old_min =? new_min then Ok f
  else
    let '(lo, hi) := if old_min <? new_min then (old_min, new_min) else (new_min, old_min) in
    let affected := filter (fun uw : N * N => (lo <=? snd uw) && (snd uw <? hi)) (elems (f_weights f)) in
    '(f, total) <- fold_res (update_min_one (new_min <? old_min)) (f, f_total f) affected ;;
    Ok (with_total (with_min f new_min) total).

(** distributing.rs:88-146 [assert_assets_whitelisted]. [page start_after] is the answer of the treasury's
    asset-whitelist query with no limit, [global] the factory's global whitelist.
    The while loop is bounded by [fuel] (gas); running out is the error [EGas]. *)
Fixpoint whitelist_loop (fuel : nat) (page : option asset -> res (list asset)) (assets : list asset)
    (last_asset : option asset) : res unit :=
  match assets, last_asset with
  | [], _ => Ok tt
  | _, None => Err EAssetNotWhitelisted
  | _, Some _ =>
      match fuel with
      | O => Err EGas
      | S n =>
          l <- page last_asset ;;
          whitelist_loop n page (filter (fun a => negb (asset_in a l)) assets) (last (map Some l) None)
      end
  end.

Definition assert_assets_whitelisted (fuel : nat) (page : option asset -> res (list asset)) (global : list asset)
    (assets : list asset) : res unit :=
  l <- page None ;;
  whitelist_loop fuel page (filter (fun a => negb (asset_in a (l ++ global))) assets) (last (map Some l) None).

(** distributing.rs:22-53 (loop body), 67-79: raise the global index of one asset *)
Definition distribute_one (total : N) (r : rewards) (c : N * N) : res rewards :=
  let '(a, amount) := c in
  inc <- dec_from_ratio amount total ;;
  g <- uint_cadd (ogetN (r_global r) a) inc ;;
  Ok (set_global r a g).

(** What the two whitelist queries answer: treasury pages and the factory's global list. *)
Record whitelist_env := mk_wl { wl_fuel : nat; wl_page : option asset -> res (list asset); wl_global : list asset }.

(** distributing.rs:22-53 [distribute_native] *)
Definition distribute_native (wl : whitelist_env) (f : funds) (coins : list coin) : res funds :=
  _ <- assert_assets_whitelisted (wl_fuel wl) (wl_page wl) (wl_global wl) (map (fun c => Native (fst c)) coins) ;;
  _ <- guard (negb (f_total f =? 0)) EZeroTotalWeight ;;
  n <- fold_res (distribute_one (f_total f)) (f_native f) coins ;;
  Ok (with_rewards f n (f_cw20 f)).

(** distributing.rs:57-86 [distribute_cw20] *)
Definition distribute_cw20 (wl : whitelist_env) (f : funds) (sender amount : N) : res funds :=
  _ <- assert_assets_whitelisted (wl_fuel wl) (wl_page wl) (wl_global wl) [Cw20 sender] ;;
  _ <- guard (negb (f_total f =? 0)) EZeroTotalWeight ;;
  c <- distribute_one (f_total f) (f_cw20 f) (sender, amount) ;;
  Ok (with_rewards f (f_native f) c).

(** claim.rs:39-71 / 73-107: one loop iteration; the accumulated payouts are (asset, amount) *)
Definition claim_one (u : addr) (weight : N) (ro : rewards * list (N * N)) (a : N) : res (rewards * list (N * N)) :=
  let '(r, outs) := ro in
  let g := ogetN (r_global r) a in
  if g =? 0 then Ok (r, outs)
  else
    reward <- user_reward g (get_dist r u a) weight ;;
    if reward =? 0 then Ok (r, outs)
    else Ok (set_dist r u a (mk_distribution g 0), outs ++ [(a, reward)]).

(** a payment the contract orders: asset, recipient, amount *)
Record payment := mk_payment { pay_asset : asset; pay_to : addr; pay_amount : N }.

(** claim.rs:22-110 [claim_rewards]; [restricted] is the enterprise contract's answer for [user] *)
Definition claim_rewards (restricted : bool) (f : funds) (sender : addr) (user : N) (natives cw20s : list N)
    : res (funds * list payment) :=
  _ <- guard (negb restricted) ERestricted ;;
  u <- addr_validate user ;;
  _ <- guard (sender =? u) EUnauthorized ;;
  let w := ogetN (f_eff f) u in
  '(n, outs1) <- fold_res (claim_one u w) (f_native f, []) natives ;;
  '(c, outs2) <- fold_res (fun ro a => a <- addr_validate a ;; claim_one u w ro a) (f_cw20 f, []) cw20s ;;
  Ok (with_rewards f n c,
      map (fun p => mk_payment (Native (fst p)) u (snd p)) outs1 ++
      map (fun p => mk_payment (Cw20 (fst p)) u (snd p)) outs2).

(** rewards.rs:43-111 [query_user_rewards] for a single asset *)
Definition claimable_side (f : funds) (r : rewards) (u a : N) : res N :=
  user_reward (ogetN (r_global r) a) (get_dist r u a) (ogetN (f_eff f) u).
Definition claimable (f : funds) (u : N) (a : asset) : res N :=
  match a with
  | Native d => claimable_side f (f_native f) u d
  | Cw20 c => claimable_side f (f_cw20 f) u c
  | Cw1155 _ _ => Ok 0
  end.

(** rewards.rs:43-111 [query_user_rewards]: repeated assets are answered once, at their first place *)
Fixpoint dedup (seen l : list N) : list N :=
  match l with
  | [] => []
  | a :: t => if existsb (N.eqb a) seen then dedup seen t else a :: dedup (a :: seen) t
  end.

Definition query_user_rewards (f : funds) (user : N) (natives cw20s : list N)
    : res (list (N * N) * list (N * N)) :=
  u <- addr_validate user ;;
  n <- map_res (fun d => x <- claimable f u (Native d) ;; Ok (d, x)) (dedup [] natives) ;;
  c20 <- map_res addr_validate cw20s ;;
  c <- map_res (fun a => x <- claimable f u (Cw20 a) ;; Ok (a, x)) (dedup [] c20) ;;
  Ok (n, c).

(** contract.rs:50-73 [execute], [receive_cw20]; [FReceive amount known]: a cw20 send notification, whose
    payload is the Distribute hook if [known] *)
Inductive funds_msg :=
| FUpdateUserWeights (changes : list (N * N))
| FUpdateMinimum (min : N)
| FDistributeNative
| FClaim (user : N) (natives cw20s : list N)
| FReceive (amount : N) (known : bool).

(** Everything a call can see besides its message: whitelist answers and restriction answers. *)
Record funds_oracle := mk_foracle { fo_wl : whitelist_env; fo_restricted : N -> bool }.

Definition funds_execute (o : funds_oracle) (f : funds) (sender : addr) (coins : list coin) (m : funds_msg)
    : res (funds * list payment) :=
  match m with
  | FUpdateUserWeights ch => f' <- update_user_weights f sender ch ;; Ok (f', [])
  | FUpdateMinimum mn => f' <- update_minimum f sender mn ;; Ok (f', [])
  | FDistributeNative => f' <- distribute_native (fo_wl o) f coins ;; Ok (f', [])
  | FClaim u ns cs => claim_rewards (fo_restricted o u) f sender u ns cs
  | FReceive amount known =>
      if known then f' <- distribute_cw20 (fo_wl o) f sender amount ;; Ok (f', []) else Err EStd
  end.

(** A history: any calls, with whatever the other contracts answer at each of them. *)
Record funds_call := mk_fcall { fc_oracle : funds_oracle; fc_sender : addr; fc_coins : list coin; fc_msg : funds_msg }.

Definition funds_step (f : funds) (c : funds_call) : funds * list payment :=
  match funds_execute (fc_oracle c) f (fc_sender c) (fc_coins c) (fc_msg c) with
  | Ok r => r
  | Err _ => (f, [])
  end.
