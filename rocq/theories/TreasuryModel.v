(** Model of contracts/enterprise-treasury: the DAO's treasury, with its whitelists and the migration of
    stakes and claims that the treasury of an old (pre 1.0.0) DAO still holds.
    Paths are relative to contracts/enterprise-treasury/src. *)
From Verif Require Import Base OMap Assets FundsModel MemberModel Msgs.

(** migration.rs:36-58 [Claim], [ClaimAsset] *)
Inductive claim_asset := LCw20 (amount : N) | LCw721 (tokens : list N).
Record old_claim := mk_old_claim { oc_asset : claim_asset; oc_release : release_at }.

(** migration_stages.rs:7-14 *)
Inductive migration_stage := MigrationNotStarted | MigrationInProgress | MigrationCompleted.

(** Storage of the old DAO: migration.rs:29-69, staking.rs:4-17, nft_staking.rs:7-37,
    migration_copy_storage.rs:6, migration_stages.rs:4. No code in this repository writes [og_type],
    [og_contract], [og_members], [og_info] and the two snapshots: they are whatever the old contract left.
    [og_nfts]: key token id, value staker and token id. [og_info]: [MIGRATION_INFO], only the field
    [membership_contract] that is read. *)
Record old_dao := mk_old_dao {
  og_type : option dao_type;
  og_contract : option addr;
  og_members : omap N;
  og_claims : omap (list old_claim);
  og_stakes : omap N;
  og_nfts : omap (addr * N);
  og_migrated : omap N;
  og_info : option (option addr);
  og_stage : option migration_stage;
  og_total_height : snap;
  og_total_seconds : snap
}.
Definition no_old_dao : old_dao :=
  mk_old_dao None None oempty oempty oempty oempty oempty None None snap_empty snap_empty.

Definition og_set_stakes (o : old_dao) (stakes migrated : omap N) : old_dao :=
  mk_old_dao (og_type o) (og_contract o) (og_members o) (og_claims o) stakes (og_nfts o) migrated (og_info o)
    (og_stage o) (og_total_height o) (og_total_seconds o).
Definition og_set_claims (o : old_dao) (c : omap (list old_claim)) : old_dao :=
  mk_old_dao (og_type o) (og_contract o) (og_members o) c (og_stakes o) (og_nfts o) (og_migrated o) (og_info o)
    (og_stage o) (og_total_height o) (og_total_seconds o).
Definition og_set_nfts (o : old_dao) (n : omap (addr * N)) (migrated : omap N) : old_dao :=
  mk_old_dao (og_type o) (og_contract o) (og_members o) (og_claims o) (og_stakes o) n migrated (og_info o)
    (og_stage o) (og_total_height o) (og_total_seconds o).
Definition og_set_stage (o : old_dao) (s : migration_stage) : old_dao :=
  mk_old_dao (og_type o) (og_contract o) (og_members o) (og_claims o) (og_stakes o) (og_nfts o) (og_migrated o)
    (og_info o) (Some s) (og_total_height o) (og_total_seconds o).

(** state.rs, asset_whitelist.rs:8-10. The key (contract, id) of the cw1155 list is a nested map. *)
Record treasury := mk_treasury {
  tr_admin : addr;
  tr_natives : omap unit;
  tr_cw20s : omap unit;
  tr_cw1155s : omap (omap unit);
  tr_nfts : omap unit;
  tr_old : old_dao
}.
Definition tr_set_admin (t : treasury) (a : addr) : treasury :=
  mk_treasury a (tr_natives t) (tr_cw20s t) (tr_cw1155s t) (tr_nfts t) (tr_old t).
Definition tr_set_natives (t : treasury) (m : omap unit) : treasury :=
  mk_treasury (tr_admin t) m (tr_cw20s t) (tr_cw1155s t) (tr_nfts t) (tr_old t).
Definition tr_set_cw20s (t : treasury) (m : omap unit) : treasury :=
  mk_treasury (tr_admin t) (tr_natives t) m (tr_cw1155s t) (tr_nfts t) (tr_old t).
Definition tr_set_cw1155s (t : treasury) (m : omap (omap unit)) : treasury :=
  mk_treasury (tr_admin t) (tr_natives t) (tr_cw20s t) m (tr_nfts t) (tr_old t).
Definition tr_set_nfts (t : treasury) (m : omap unit) : treasury :=
  mk_treasury (tr_admin t) (tr_natives t) (tr_cw20s t) (tr_cw1155s t) m (tr_old t).
Definition tr_set_old (t : treasury) (o : old_dao) : treasury :=
  mk_treasury (tr_admin t) (tr_natives t) (tr_cw20s t) (tr_cw1155s t) (tr_nfts t) o.

(** cw-asset [AssetInfoUnchecked::check]: contract addresses are validated *)
Definition check_asset (a : asset) : res asset :=
  match a with
  | Native d => Ok (Native d)
  | Cw20 c => c <- addr_validate c ;; Ok (Cw20 c)
  | Cw1155 c i => c <- addr_validate c ;; Ok (Cw1155 c i)
  end.

(** asset_whitelist.rs:24-42 [add_whitelisted_assets_checked], one asset *)
Definition add_asset (t : treasury) (a : asset) : res treasury :=
  match a with
  | Native d => Ok (tr_set_natives t (oset (tr_natives t) d tt))
  | Cw20 c => Ok (tr_set_cw20s t (oset (tr_cw20s t) c tt))
  | Cw1155 _ _ => Err EStd
  end.
(** asset_whitelist.rs:12-22 [add_whitelisted_assets] *)
Definition add_assets (t : treasury) (l : list asset) : res treasury :=
  l <- map_res check_asset l ;;
  fold_res add_asset t l.

(** asset_whitelist.rs:44-64 [remove_whitelisted_assets]. Removing the last id of a cw1155 contract leaves
    an empty inner map, which no query shows. *)
Definition remove_asset (t : treasury) (a : asset) : res treasury :=
  match a with
  | Native d => Ok (tr_set_natives t (odel (tr_natives t) d))
  | Cw20 c => c <- addr_validate c ;; Ok (tr_set_cw20s t (odel (tr_cw20s t) c))
  | Cw1155 c i =>
      c <- addr_validate c ;;
      Ok (match oget (tr_cw1155s t) c with
          | Some m => tr_set_cw1155s t (oset (tr_cw1155s t) c (odel m i))
          | None => t
          end)
  end.
Definition remove_assets (t : treasury) (l : list asset) : res treasury := fold_res remove_asset t l.

(** contract.rs:78-81, 145-147: adding one NFT collection; 148-153: removing one *)
Definition add_nft (t : treasury) (n : N) : res treasury :=
  n <- addr_validate n ;; Ok (tr_set_nfts t (oset (tr_nfts t) n tt)).
Definition remove_nft (t : treasury) (n : N) : res treasury :=
  n <- addr_validate n ;; Ok (tr_set_nfts t (odel (tr_nfts t) n)).

(** contract.rs:63-84 [instantiate]. [old] is what the storage holds besides: nothing for a new contract. *)
Definition treasury_instantiate (admin : N) (assets : option (list asset)) (nfts : option (list N)) : res treasury :=
  admin <- addr_validate admin ;;
  t <- add_assets (mk_treasury admin oempty oempty oempty oempty no_old_dao) (dflt [] assets) ;;
  fold_res add_nft t (dflt [] nfts).

(** validate.rs:7-15 [admin_only] *)
Definition tr_admin_only (t : treasury) (sender : addr) : res unit := guard (sender =? tr_admin t) EUnauthorized.

(** cw-asset [Asset::transfer_msg]; it has no message for a cw1155 asset (contract.rs:161 says so too).
    contract.rs:158-173 [spend] does not validate the recipient. *)
Definition transfer_msg (to : N) (a : asset * N) : res cosmos_msg :=
  match fst a with
  | Native d => Ok (BankSend to [(d, snd a)])
  | Cw20 c => Ok (WasmExecute c (ToCw20 (Cw20Transfer to (snd a))) [])
  | Cw1155 _ _ => Err EStd
  end.
Definition spend_msg (to : N) (a : asset * N) : res sub_msg :=
  i <- check_asset (fst a) ;;
  m <- transfer_msg to (i, snd a) ;;
  Ok (plain m).
Definition spend (t : treasury) (sender : addr) (to : N) (assets : list (asset * N)) : res (treasury * list sub_msg) :=
  _ <- tr_admin_only t sender ;;
  msgs <- map_res (spend_msg to) assets ;;
  Ok (t, msgs).

(** contract.rs:187-210: loop of [distribute_funds]: native coins and cw20 messages so far *)
Definition tr_distribute_one (distributor : addr) (st : list coin * list sub_msg) (a : asset * N)
    : res (list coin * list sub_msg) :=
  match fst a with
  | Native d => Ok (fst st ++ [(d, snd a)], snd st)
  | Cw20 c =>
      c <- addr_validate c ;;
      Ok (fst st, snd st ++ [plain (WasmExecute c (ToCw20 (Cw20Send distributor (snd a) HookDistribute)) [])])
  | Cw1155 _ _ => Err EStd
  end.
(** contract.rs:175-220 [distribute_funds] *)
Definition tr_distribute (t : treasury) (sender : addr) (funds : list (asset * N)) (distributor : N)
    : res (treasury * list sub_msg) :=
  _ <- tr_admin_only t sender ;;
  distributor <- addr_validate distributor ;;
  r <- fold_res (tr_distribute_one distributor) ([], []) funds ;;
  Ok (t, snd r ++ match fst r with
                  | [] => []
                  | coins => [plain (WasmExecute distributor (ToFunds FDistributeNative) coins)]
                  end).

(** contract.rs:222-237 [execute_cosmos_msgs] *)
Definition execute_cosmos_msgs (t : treasury) (sender : addr) (msgs : list (option cosmos_msg))
    : res (treasury * list sub_msg) :=
  _ <- tr_admin_only t sender ;;
  l <- parse_msgs msgs ;;
  Ok (t, map plain l).

(** ** The migration of an old DAO (migration.rs) *)

(** migration.rs:164-211 [migrate_and_clear_cw20_stakes_submsg]; result: state, message, items consumed *)
Definition migrate_stakes (o : old_dao) (token membership : addr) (limit : N)
    : res (old_dao * list sub_msg * N) :=
  let batch := take limit (elems (og_stakes o)) in
  total <- fold_res (fun s (x : N * N) => uint_add s (snd x)) 0 batch ;;
  let stakes := fold_left (fun m (x : N * N) => odel m (fst x)) batch (og_stakes o) in
  let migrated := fold_left (fun m (x : N * N) => oset m (fst x) (snd x)) batch (og_migrated o) in
  Ok (og_set_stakes o stakes migrated,
      if total =? 0 then []
      else [plain (WasmExecute token (ToCw20 (Cw20Send membership total (HookMember (HAddStakes batch)))) [])],
      N.of_nat (length batch) mod M32).

(** migration.rs:219-223: the running total, number and list of the claims included *)
Record claims_acc := mk_acc { ca_total : N; ca_included : N; ca_sent : list (N * N * release_at) }.

(** migration.rs:242-255: one claim of [user] *)
Definition include_claim (limit : N) (user : addr) (st : claims_acc * list old_claim) (c : old_claim)
    : res (claims_acc * list old_claim) :=
  let acc := fst st in
  match oc_asset c with
  | LCw20 amount =>
      if ca_included acc <? limit then
        total <- uint_add (ca_total acc) amount ;;
        Ok (mk_acc total (u32_add (ca_included acc) 1) (ca_sent acc ++ [(user, amount, oc_release c)]), snd st)
      else Ok (acc, snd st ++ [c])
  | LCw721 _ => Ok (acc, snd st ++ [c])
  end.

(** migration.rs:228-259: the users of one pass; [break] when the limit is reached *)
Fixpoint include_users (limit : N) (acc : claims_acc) (users : list (N * list old_claim))
    : res (claims_acc * list (N * list old_claim)) :=
  match users with
  | [] => Ok (acc, [])
  | (user, claims) :: rest =>
      if limit <=? ca_included acc then Ok (acc, [])
      else
        r <- fold_res (include_claim limit user) (acc, []) claims ;;
        r' <- include_users limit (fst r) rest ;;
        Ok (fst r', (user, snd r) :: snd r')
  end.

(** migration.rs:261-267: writing the remaining claims back *)
Definition replace_claims (m : omap (list old_claim)) (x : N * list old_claim) : omap (list old_claim) :=
  match snd x with [] => odel m (fst x) | _ => oset m (fst x) (snd x) end.

(** migration.rs:225-268: the [while] loop. [gas] bounds the number of passes; when it is used up the
    transaction fails ([EGas]). Theorems hold for every amount of gas. *)
Fixpoint claims_loop (gas : nat) (limit : N) (m : omap (list old_claim)) (acc : claims_acc)
    : res (omap (list old_claim) * claims_acc) :=
  if (ca_included acc <? limit) && negb (match elems m with [] => true | _ => false end) then
    match gas with
    | O => Err EGas
    | S gas =>
        r <- include_users limit acc (take limit (elems m)) ;;
        claims_loop gas limit (fold_left replace_claims (snd r) m) (fst r)
    end
  else Ok (m, acc).

(** migration.rs:213-292 [migrate_and_clear_cw20_claims_submsg] *)
Definition migrate_claims (gas : nat) (o : old_dao) (token membership : addr) (limit : N)
    : res (old_dao * list sub_msg * N) :=
  r <- claims_loop gas limit (og_claims o) (mk_acc 0 0 []) ;;
  let acc := snd r in
  Ok (og_set_claims o (fst r),
      if ca_total acc =? 0 then []
      else [plain (WasmExecute token (ToCw20 (Cw20Send membership (ca_total acc) (HookMember (HAddClaims (ca_sent acc))))) [])],
      ca_included acc).

Definition send_nft (collection membership : addr) (token : N) (h : nft_hook) : sub_msg :=
  plain (WasmExecute collection (ToCw721 (Cw721Send membership token h)) []).

(** migration.rs:327-339: clearing one NFT stake; key, (staker, token) *)
Definition clear_nft_stake (st : omap (addr * N) * omap N) (x : N * (addr * N)) : res (omap (addr * N) * omap N) :=
  let '(nfts, migrated) := st in
  let '(key, (staker, _)) := x in
  w <- uint_cadd (ogetN migrated staker) 1 ;;
  Ok (odel nfts key, oset migrated staker w).

(** migration.rs:294-341 [migrate_and_clear_cw721_stakes_submsgs] *)
Definition migrate_nft_stakes (o : old_dao) (collection membership : addr) (limit : N)
    : res (old_dao * list sub_msg) :=
  let batch := take limit (elems (og_nfts o)) in
  r <- fold_res clear_nft_stake (og_nfts o, og_migrated o) batch ;;
  Ok (og_set_nfts o (fst r) (snd r),
      map (fun x : N * (addr * N) => send_nft collection membership (snd (snd x)) (NStake (fst (snd x)))) batch).

(** migration.rs:359-386: messages for the claims of one user *)
Definition nft_claim_msgs (collection membership : addr) (x : N * list old_claim) : list sub_msg :=
  flat_map (fun c => match oc_asset c with
                     | LCw20 _ => []
                     | LCw721 tokens => map (fun t => send_nft collection membership t (NAddClaim (fst x) (oc_release c))) tokens
                     end) (snd x).

(** migration.rs:353-392: the [while] loop; [included] is the u32 counter *)
Fixpoint nft_claims_loop (gas : nat) (collection membership : addr) (limit : N) (m : omap (list old_claim))
    (included : N) (msgs : list sub_msg) : res (omap (list old_claim) * list sub_msg) :=
  if (included <? limit) && negb (match elems m with [] => true | _ => false end) then
    match gas with
    | O => Err EGas
    | S gas =>
        let batch := take limit (elems m) in
        let new := flat_map (nft_claim_msgs collection membership) batch in
        nft_claims_loop gas collection membership limit (fold_left (fun m (x : N * list old_claim) => odel m (fst x)) batch m)
          (u32_add included (N.of_nat (length new))) (msgs ++ new)
    end
  else Ok (m, msgs).

(** migration.rs:343-395 [migrate_and_clear_cw721_claims_submsgs] *)
Definition migrate_nft_claims (gas : nat) (o : old_dao) (collection membership : addr) (limit : N)
    : res (old_dao * list sub_msg) :=
  r <- nft_claims_loop gas collection membership limit (og_claims o) 0 [] ;;
  Ok (og_set_claims o (fst r), snd r).

(** migration.rs:78-162 [finalize_membership_contract_submsgs] *)
Definition finalize_membership (gas : nat) (o : old_dao) (membership : addr) (limit : N)
    : res (old_dao * list sub_msg * N) :=
  ty <- ok_or (og_type o) ENotFound ;;
  match ty with
  | DaoDenom => Err EStd
  | DaoToken =>
      token <- ok_or (og_contract o) ENotFound ;;
      '(o1, m1, n1) <- migrate_stakes o token membership limit ;;
      '(o2, m2, n2) <- migrate_claims gas o1 token membership (u32_sub limit n1) ;;
      Ok (o2, m1 ++ m2, u32_add n1 n2)
  | DaoNft =>
      collection <- ok_or (og_contract o) ENotFound ;;
      '(o1, m1) <- migrate_nft_stakes o collection membership limit ;;
      '(o2, m2) <- migrate_nft_claims gas o1 collection membership (u32_sub limit (N.of_nat (length m1) mod M32)) ;;
      Ok (o2, m1 ++ m2, N.of_nat (length (m1 ++ m2)) mod M32)
  | DaoMultisig => Ok (o, [], 0)
  end.

(** migration.rs:426-459 [perform_next_migration_step_safe] *)
Definition migration_step_safe (gas : nat) (o : old_dao) (limit : option N) : res (old_dao * list sub_msg) :=
  info <- ok_or (og_info o) ENotFound ;;
  membership <- ok_or info EStd ;;
  ty <- ok_or (og_type o) ENotFound ;;
  let limit := dflt (match ty with DaoNft => 20 | _ => 100 end) limit in
  '(o', msgs, consumed) <- finalize_membership gas o membership limit ;;
  Ok (og_set_stage o' (if consumed <? limit then MigrationCompleted else MigrationInProgress), msgs).

(** contract.rs:392-418 [query_has_unmoved_stakes_or_claims] *)
Definition is_empty {V} (m : omap V) : bool := match elems m with [] => true | _ => false end.
Definition has_unmoved (o : old_dao) : bool :=
  negb (is_empty (og_stakes o)) || negb (is_empty (og_nfts o)) || negb (is_empty (og_claims o)).

(** migration.rs:397-424 [perform_next_migration_step]; anyone may call it *)
Definition migration_step (gas : nat) (o : old_dao) (limit : option N) : res (old_dao * list sub_msg) :=
  match dflt MigrationNotStarted (og_stage o) with
  | MigrationNotStarted => Err EInvalidState
  | MigrationInProgress => migration_step_safe gas o limit
  | MigrationCompleted => if has_unmoved o then migration_step_safe gas o limit else Err EInvalidState
  end.

(** contract.rs:89-110 [execute] *)
Definition treasury_execute (gas : nat) (t : treasury) (sender : addr) (m : treasury_msg)
    : res (treasury * list sub_msg) :=
  match m with
  | TrSetAdmin a =>
      _ <- tr_admin_only t sender ;;
      a <- addr_validate a ;;
      Ok (tr_set_admin t a, [])
  | TrUpdateAssets add remove =>
      _ <- tr_admin_only t sender ;;
      t <- add_assets t add ;;
      t <- remove_assets t remove ;;
      Ok (t, [])
  | TrUpdateNfts add remove =>
      _ <- tr_admin_only t sender ;;
      t <- fold_res add_nft t add ;;
      t <- fold_res remove_nft t remove ;;
      Ok (t, [])
  | TrSpend to assets => spend t sender to assets
  | TrDistribute funds distributor => tr_distribute t sender funds distributor
  | TrExecute msgs => execute_cosmos_msgs t sender msgs
  | TrMigrationStep limit =>
      '(o, msgs) <- migration_step gas (tr_old t) limit ;;
      Ok (tr_set_old t o, msgs)
  end.

(** contract.rs:239-251 [reply]: no message asks for a reply; a reply with the id 6 of the old contract is
    accepted without effect *)
Definition treasury_reply (t : treasury) (id : N) : res treasury := if id =? 6 then Ok t else Err EStd.

(** ** Queries *)

(** asset_whitelist.rs:120-136: keys of the cw1155 map in order *)
Definition cw1155_list (t : treasury) : list (N * N) :=
  flat_map (fun x : N * omap unit => map (fun i => (fst x, i)) (okeys (snd x))) (elems (tr_cw1155s t)).
(** asset_whitelist.rs:120-136 [get_whitelisted_assets_starting_with_cw1155] *)
Definition assets_from_cw1155 (t : treasury) (start_after : option (N * N)) (limit : N) : list asset :=
  let after (k : N * N) :=
    match start_after with
    | None => true
    | Some s => (fst s <? fst k) || ((fst s =? fst k) && (snd s <? snd k))
    end in
  map (fun k : N * N => Cw1155 (fst k) (snd k)) (take limit (filter after (cw1155_list t))).
(** asset_whitelist.rs:93-118 [get_whitelisted_assets_starting_with_cw20] *)
Definition assets_from_cw20 (t : treasury) (start_after : option N) (limit : N) : list asset :=
  let l := map (fun x : N * unit => Cw20 (fst x)) (take limit (orange (tr_cw20s t) start_after)) in
  let n := N.of_nat (length l) in
  if n <? limit then l ++ assets_from_cw1155 t None (limit - n) else l.
(** asset_whitelist.rs:66-91 [get_whitelisted_assets_starting_with_native] *)
Definition assets_from_native (t : treasury) (start_after : option N) (limit : N) : list asset :=
  let l := map (fun x : N * unit => Native (fst x)) (take limit (orange (tr_natives t) start_after)) in
  let n := N.of_nat (length l) in
  if n <? limit then l ++ assets_from_cw20 t None (limit - n) else l.

(** contract.rs:57-61, 284-287: limits *)
Definition query_limit (limit : option N) : N := N.min (dflt 30 limit) 100.

(** contract.rs:281-310 [query_asset_whitelist] *)
Definition query_asset_whitelist (t : treasury) (start_after : option asset) (limit : option N) : res (list asset) :=
  let n := query_limit limit in
  match start_after with
  | None => Ok (assets_from_native t None n)
  | Some (Native d) => Ok (assets_from_native t (Some d) n)
  | Some (Cw20 c) => c <- addr_validate c ;; Ok (assets_from_cw20 t (Some c) n)
  | Some (Cw1155 c i) => c <- addr_validate c ;; Ok (assets_from_cw1155 t (Some (c, i)) n)
  end.

(** contract.rs:312-336 [query_nft_whitelist] *)
Definition query_nft_whitelist (t : treasury) (start_after : option N) (limit : option N) : res (list N) :=
  match start_after with
  | Some a =>
      a <- addr_validate a ;;
      Ok (map fst (take (query_limit limit) (orange (tr_nfts t) (Some a))))
  | None => Ok (map fst (take (query_limit limit) (orange (tr_nfts t) None)))
  end.

(** nft_staking.rs:39-54 [load_all_nft_stakes_for_user]: number of stakes with this staker *)
Definition nft_count (m : omap (addr * N)) (user : addr) : N :=
  lsum (fun x : N * (addr * N) => if fst (snd x) =? user then 1 else 0) (elems m).

(** migration.rs:476-492 [load_pre_migration_user_weight], with the default of contract.rs:345 *)
Definition pre_migration_weight (o : old_dao) (user : addr) : res N :=
  ty <- ok_or (og_type o) ENotFound ;;
  match ty with
  | DaoDenom => Err EStd
  | DaoToken => Ok (ogetN (og_stakes o) user)
  | DaoNft => Ok (nft_count (og_nfts o) user)
  | DaoMultisig => Ok (ogetN (og_members o) user)
  end.
(** contract.rs:338-353 [query_user_weight] *)
Definition query_old_user_weight (t : treasury) (user : N) : res N :=
  user <- addr_validate user ;;
  w <- pre_migration_weight (tr_old t) user ;;
  uint_cadd w (ogetN (og_migrated (tr_old t)) user).

(** contract.rs:355-367 [query_total_weight] *)
Definition query_old_total_weight (t : treasury) (x : expiration) : res N :=
  match x with
  | AtHeight h => Ok (dflt 0 (snap_at (og_total_height (tr_old t)) h))
  | AtTime s => Ok (dflt 0 (snap_at (og_total_seconds (tr_old t)) (ts_seconds s)))
  | Never => ok_or (s_current (og_total_height (tr_old t))) ENotFound
  end.

(** contract.rs:369-389 [query_has_incomplete_v2_migration] *)
Definition has_incomplete_migration (t : treasury) : bool :=
  match og_stage (tr_old t) with Some MigrationInProgress => true | _ => false end.

(** ** Histories: a call that fails leaves no trace *)
Record treasury_call := mk_tcall { tc_gas : nat; tc_sender : addr; tc_msg : treasury_msg }.
Definition treasury_step (t : treasury) (c : treasury_call) : treasury * list sub_msg :=
  match treasury_execute (tc_gas c) t (tc_sender c) (tc_msg c) with
  | Ok r => r
  | Err _ => (t, [])
  end.
(** State after a list of calls and all the messages sent, in order. *)
Fixpoint treasury_run (t : treasury) (cs : list treasury_call) : treasury * list sub_msg :=
  match cs with
  | [] => (t, [])
  | c :: cs =>
      let '(t, m) := treasury_step t c in
      let '(t, m') := treasury_run t cs in
      (t, m ++ m')
  end.
