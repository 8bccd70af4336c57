(** Specifications for the treasury, stated without its handlers. *)
From Verif Require Import Base OMap Assets FundsModel MemberModel Msgs TreasuryModel.

(** ** Whitelists *)

(** The asset is whitelisted. *)
Definition listed (t : treasury) (a : asset) : Prop :=
  match a with
  | Native d => oget (tr_natives t) d = Some tt
  | Cw20 c => oget (tr_cw20s t) c = Some tt
  | Cw1155 c i => exists m, oget (tr_cw1155s t) c = Some m /\ oget m i = Some tt
  end.
Definition nft_listed (t : treasury) (n : N) : Prop := oget (tr_nfts t) n = Some tt.

(** No contract address on a list is malformed. Every treasury created by the contract keeps this. *)
Definition lists_ok (t : treasury) : Prop :=
  oget (tr_cw20s t) 0 = None /\ oget (tr_cw1155s t) 0 = None /\ oget (tr_nfts t) 0 = None.

(** [page] answers queries over the list [W] in pages of [k]: the first page, and the page after an entry. *)
Definition pages_of {A} (W : list A) (k : nat) (page : option A -> res (list A)) : Prop :=
  page None = Ok (firstn k W) /\
  forall i a, nth_error W i = Some a -> page (Some a) = Ok (firstn k (skipn (S i) W)).

(** What a client reads that asks for pages, each after the last entry of the one before, until a page is
    empty. *)
Fixpoint read_pages {A} (fuel : nat) (page : option A -> res (list A)) (start : option A) : res (list A) :=
  match fuel with
  | O => Ok []
  | S n =>
      l <- page start ;;
      match l with
      | [] => Ok []
      | _ => rest <- read_pages n page (last (map Some l) None) ;; Ok (l ++ rest)
      end
  end.

(** ** Spending *)

(** The transfer of an asset; there is none for a cw1155 asset. *)
Inductive transfers (to : N) : asset * N -> sub_msg -> Prop :=
| transfers_native d n : transfers to (Native d, n) (plain (BankSend to [(d, n)]))
| transfers_cw20 c n : c <> 0 -> transfers to (Cw20 c, n) (plain (WasmExecute c (ToCw20 (Cw20Transfer to n)) [])).

(** The native coins and the cw20 payments of a distribution. *)
Definition native_part (funds : list (asset * N)) : list coin :=
  flat_map (fun a => match fst a with Native d => [(d, snd a)] | _ => [] end) funds.
Definition cw20_part (distributor : N) (funds : list (asset * N)) : list sub_msg :=
  flat_map (fun a => match fst a with
                     | Cw20 c => [plain (WasmExecute c (ToCw20 (Cw20Send distributor (snd a) HookDistribute)) [])]
                     | _ => []
                     end) funds.

(** ** Migration *)

(** Token claims (user, amount, release) and NFT claims (user, token, release) of a claims table, in order. *)
Definition user_claims (x : N * list old_claim) : list (N * N * release_at) :=
  flat_map (fun c => match oc_asset c with LCw20 n => [(fst x, n, oc_release c)] | LCw721 _ => [] end) (snd x).
Definition user_nft_claims (x : N * list old_claim) : list (N * N * release_at) :=
  flat_map (fun c => match oc_asset c with LCw20 _ => [] | LCw721 l => map (fun t => (fst x, t, oc_release c)) l end) (snd x).
Definition token_claims (l : list (N * list old_claim)) := flat_map user_claims l.
Definition nft_claims (l : list (N * list old_claim)) := flat_map user_nft_claims l.

(** What a message hands over to a membership contract. *)
Definition stakes_in (m : sub_msg) : list (N * N) :=
  match sm_msg m with WasmExecute _ (ToCw20 (Cw20Send _ _ (HookMember (HAddStakes l)))) _ => l | _ => [] end.
Definition claims_in (m : sub_msg) : list (N * N * release_at) :=
  match sm_msg m with WasmExecute _ (ToCw20 (Cw20Send _ _ (HookMember (HAddClaims l)))) _ => l | _ => [] end.
Definition nft_stake_in (m : sub_msg) : list (N * N) :=
  match sm_msg m with WasmExecute _ (ToCw721 (Cw721Send _ t (NStake u))) _ => [(u, t)] | _ => [] end.
Definition nft_claim_in (m : sub_msg) : list (N * N * release_at) :=
  match sm_msg m with WasmExecute _ (ToCw721 (Cw721Send _ t (NAddClaim u r))) _ => [(u, t, r)] | _ => [] end.

Definition positive_stake (x : N * N) : bool := negb (snd x =? 0).
Definition positive_claim (x : N * N * release_at) : bool := negb (snd (fst x) =? 0).
Definition claim_amount (x : N * N * release_at) : N := snd (fst x).

(** A message of the migration: old membership tokens sent to the membership contract, of exactly the
    amount recorded in the message. *)
Inductive migration_msg (contract membership : addr) : sub_msg -> Prop :=
| mig_stakes l : lsum snd l <> 0 -> lsum snd l < M128 ->
    migration_msg contract membership
      (plain (WasmExecute contract (ToCw20 (Cw20Send membership (lsum snd l) (HookMember (HAddStakes l)))) []))
| mig_claims l : lsum claim_amount l <> 0 -> lsum claim_amount l < M128 ->
    migration_msg contract membership
      (plain (WasmExecute contract (ToCw20 (Cw20Send membership (lsum claim_amount l) (HookMember (HAddClaims l)))) []))
| mig_nft_stake token user :
    migration_msg contract membership (plain (WasmExecute contract (ToCw721 (Cw721Send membership token (NStake user))) []))
| mig_nft_claim token user r :
    migration_msg contract membership
      (plain (WasmExecute contract (ToCw721 (Cw721Send membership token (NAddClaim user r))) [])).

(** The limit a migration step works with. *)
Definition step_limit (ty : dao_type) (limit : option N) : N :=
  dflt (match ty with DaoNft => 20 | _ => 100 end) limit.

(** The messages of the contract are typed: a limit is a u32. *)
Definition typed_limit (limit : option N) : Prop := match limit with Some l => l < M32 | None => True end.

(** All the tokens recorded in a token DAO's tables. *)
Definition token_amounts (o : old_dao) : N :=
  lsum snd (elems (og_stakes o)) + lsum claim_amount (token_claims (elems (og_claims o))).

(** What can be sent to the distributor. *)
Definition distributable (a : asset * N) : Prop := match fst a with Native _ => True | Cw20 c => c <> 0 | Cw1155 _ _ => False end.

(** What can be put on a list, or taken off it. *)
Definition valid_asset (a : asset) : Prop := match a with Native _ => True | Cw20 c | Cw1155 c _ => c <> 0 end.

Definition addable (a : asset) : Prop := valid_asset a /\ match a with Cw1155 _ _ => False | _ => True end.

(** Nothing changes on the lists. *)
Definition same_lists (t t' : treasury) : Prop :=
  tr_natives t' = tr_natives t /\ tr_cw20s t' = tr_cw20s t /\ tr_cw1155s t' = tr_cw1155s t /\ tr_nfts t' = tr_nfts t.

(** What no step of the migration touches. *)
Definition same_rest (o o' : old_dao) : Prop :=
  og_type o' = og_type o /\ og_contract o' = og_contract o /\ og_members o' = og_members o /\ og_info o' = og_info o /\
  og_total_height o' = og_total_height o /\ og_total_seconds o' = og_total_seconds o.

(** The whitelist as the funds distributor reads it: this treasury's list, and a global one. *)
Definition treasury_whitelist (t : treasury) (fuel : nat) (global : list asset) : whitelist_env :=
  mk_wl fuel (fun start => query_asset_whitelist t start None) global.

(** The last entry for [u] in [l], or else the entry in [m]. *)
Definition credited (m : omap N) (l : list (N * N)) (u : N) : N :=
  fold_left (fun acc (x : N * N) => if fst x =? u then snd x else acc) l (ogetN m u).

(** ... and so for a call. *)
Definition typed_call (c : treasury_call) : Prop := match tc_msg c with TrMigrationStep l => typed_limit l | _ => True end.

(** The admin can make the treasury send any message; the statements on what is sent set those calls aside. *)
Definition not_custom (c : treasury_call) : Prop := match tc_msg c with TrExecute _ => False | _ => True end.

(** A claims table without NFT claims. *)
Definition token_only (l : list (N * list old_claim)) : Prop :=
  forall u cs c, In (u, cs) l -> In c cs -> exists n, oc_asset c = LCw20 n.

(** The migration is over: marked so, and nothing is left. *)
Definition finished (o : old_dao) : Prop :=
  og_stage o = Some MigrationCompleted /\ elems (og_stakes o) = [] /\ elems (og_nfts o) = [] /\ elems (og_claims o) = [].

(** A token DAO whose migration has begun, with amounts that fit; [gas] is enough for its claims. *)
Definition token_ready (gas : nat) (o : old_dao) : Prop :=
  og_type o = Some DaoToken /\ (exists c, og_contract o = Some c) /\ (exists m, og_info o = Some (Some m)) /\
  token_only (elems (og_claims o)) /\ (length (elems (og_claims o)) <= gas)%nat /\
  token_amounts o < M128 /\ elems (og_nfts o) = [] /\ og_stage o = Some MigrationInProgress.

(** How many stakes and claims are left. *)
Definition token_items (o : old_dao) : nat := length (elems (og_stakes o)) + length (token_claims (elems (og_claims o))).

Definition nft_items (o : old_dao) : N := N.of_nat (length (elems (og_nfts o)) + length (nft_claims (elems (og_claims o)))).

(** The same for an NFT DAO. *)
Definition nft_ready (gas : nat) (o : old_dao) : Prop :=
  og_type o = Some DaoNft /\ (exists c, og_contract o = Some c) /\ (exists m, og_info o = Some (Some m)) /\
  nft_items o < M32 /\ (length (elems (og_claims o)) <= gas)%nat /\
  (forall u, ogetN (og_migrated o) u + N.of_nat (length (elems (og_nfts o))) < M128) /\
  elems (og_stakes o) = [] /\ og_stage o = Some MigrationInProgress.

(** The call is a migration step with a limit above zero and enough gas. *)
Definition steps_well (ty : dao_type) (gas : nat) (c : treasury_call) : Prop :=
  exists limit, tc_msg c = TrMigrationStep limit /\ typed_limit limit /\ 0 < step_limit ty limit /\ (gas <= tc_gas c)%nat.

(** No staker has been migrated already (at the start no one has). *)
Definition disjoint_weights (o : old_dao) : Prop :=
  og_type o = Some DaoToken -> forall u v, oget (og_stakes o) u = Some v -> ogetN (og_migrated o) u = 0.

(** The membership contract takes in this staker. *)
Definition welcome (o : member_oracle) (x : N * N) : Prop := snd x <> 0 -> fst x <> 0 /\ mo_restricted o (fst x) = Ok false.
