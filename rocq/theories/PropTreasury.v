(** Treasury properties C42-C44, C63, and C18 with the treasury's own list. *)
From Verif Require Import Base OMap Assets FundsModel FundsSpec FundsExamples MemberModel Msgs
  TreasuryModel TreasurySpec TreasuryExamples TreasuryFacts MigrationFacts TreasuryCases.

(** C42: of a call that is not the admin's, only the continuation of the migration can succeed. *)
Theorem C42_others_only_migrate : forall gas t sender m t' msgs,
  treasury_execute gas t sender m = Ok (t', msgs) -> sender <> tr_admin t -> exists limit, m = TrMigrationStep limit.
Proof. exact others_only_migrate. Qed.
Print Assumptions C42_others_only_migrate.

(** ... a spend order is one transfer per listed asset, in order, to that recipient, and nothing else. *)
Theorem C42_spend_exact : forall gas t sender to assets t' msgs,
  treasury_execute gas t sender (TrSpend to assets) = Ok (t', msgs) <->
  sender = tr_admin t /\ t' = t /\ Forall2 (transfers to) assets msgs.
Proof. exact spend_exact. Qed.
Print Assumptions C42_spend_exact.

(** ... a distribution order sends exactly the listed assets to the distributor. *)
Theorem C42_distribute_exact : forall gas t sender funds d t' msgs,
  treasury_execute gas t sender (TrDistribute funds d) = Ok (t', msgs) <->
  sender = tr_admin t /\ t' = t /\ d <> 0 /\ Forall distributable funds /\
  msgs = cw20_part d funds ++
         (if native_part funds then [] else [plain (WasmExecute d (ToFunds FDistributeNative) (native_part funds))]).
Proof. exact distribute_exact. Qed.
Print Assumptions C42_distribute_exact.

(** ... a custom order sends exactly the given messages. *)
Theorem C42_execute_exact : forall gas t sender l t' msgs,
  treasury_execute gas t sender (TrExecute l) = Ok (t', msgs) <->
  sender = tr_admin t /\ t' = t /\ exists ms, l = map Some ms /\ msgs = map plain ms.
Proof. exact execute_exact. Qed.
Print Assumptions C42_execute_exact.

(** ... the admin changes only by the admin's order. *)
Theorem C42_set_admin_exact : forall gas t sender a t' msgs,
  treasury_execute gas t sender (TrSetAdmin a) = Ok (t', msgs) <->
  sender = tr_admin t /\ a <> 0 /\ t' = mk_treasury a (tr_natives t) (tr_cw20s t) (tr_cw1155s t) (tr_nfts t) (tr_old t) /\ msgs = [].
Proof. exact set_admin_exact. Qed.
Print Assumptions C42_set_admin_exact.

Example C42_nonvacuous :
  treasury_execute 0 tr_new 900 (TrSpend 900 [(Native 70, 5)]) = Err EUnauthorized /\
  is_ok (treasury_execute 0 tr_new 3 (TrSpend 900 [(Native 70, 5); (Cw20 50, 6)])) = true /\
  treasury_execute 0 tr_new 3 (TrSpend 900 [(Native 70, 5); (Cw1155 40 1, 6)]) = Err EStd /\
  (exists t', treasury_execute 0 tr_new 3 (TrDistribute [(Cw20 50, 9); (Native 70, 5); (Native 71, 6)] 6) =
     Ok (t', [plain (WasmExecute 50 (ToCw20 (Cw20Send 6 9 HookDistribute)) []);
              plain (WasmExecute 6 (ToFunds FDistributeNative) [(70, 5); (71, 6)])])) /\
  treasury_execute 0 tr_new 3 (TrExecute [Some (BankSend 9 [(70, 1)]); None]) = Err EInvalidArgument.
Proof. exact case_spend. Qed.

(** ... so whatever others do, in any order, they change neither the admin nor the lists, and move only the old DAO's membership tokens, to the new membership contract. *)
Theorem C42_strangers : forall t cs t' msgs,
  treasury_run t cs = (t', msgs) ->
  Forall (fun c => tc_sender c <> tr_admin t /\ match tc_msg c with TrMigrationStep l => typed_limit l | _ => True end) cs ->
  tr_admin t' = tr_admin t /\ same_lists t t' /\
  Forall (fun m => exists c membership, og_contract (tr_old t) = Some c /\ og_info (tr_old t) = Some (Some membership) /\
                                        migration_msg c membership m) msgs.
Proof. exact strangers_history. Qed.
Print Assumptions C42_strangers.

(** ... and a new treasury, which has no old DAO, does not even do that. *)
Theorem C42_new_treasury_silent : forall admin assets nfts t cs t' msgs,
  treasury_instantiate admin assets nfts = Ok t -> treasury_run t cs = (t', msgs) ->
  Forall (fun c => tc_sender c <> admin) cs -> t' = t /\ msgs = [].
Proof. exact fresh_silent. Qed.
Print Assumptions C42_new_treasury_silent.

Theorem C42_new_treasury_no_migration : forall admin assets nfts t cs t' msgs,
  treasury_instantiate admin assets nfts = Ok t -> treasury_run t cs = (t', msgs) ->
  tr_old t' = no_old_dao /\ forall gas sender limit, treasury_execute gas t' sender (TrMigrationStep limit) = Err EInvalidState.
Proof. exact fresh_history. Qed.
Print Assumptions C42_new_treasury_no_migration.

Example C42_strangers_nonvacuous :
  Forall (fun c => tc_sender c <> tr_admin tr_token /\ match tc_msg c with TrMigrationStep l => typed_limit l | _ => True end) strangers /\
  length (snd (treasury_run tr_token strangers)) = 3%nat /\
  treasury_instantiate 3 (Some [Native 70; Cw20 50]) (Some [60]) <> Err EInvalidArgument /\
  length (snd (treasury_run tr_new (strangers ++ [mk_tcall 0 3 (TrSpend 900 [(Native 70, 5)])]))) = 1%nat.
Proof. exact case_strangers. Qed.

(** C43: there is one list, without repetition, of exactly the whitelisted assets, and reading page by page with any page size yields it. *)
Theorem C43_asset_pages : forall t,
  lists_ok t ->
  exists W, NoDup W /\ (forall a, In a W <-> listed t a) /\
    forall limit, limit <> Some 0 ->
      pages_of W (N.to_nat (N.min (dflt 30 limit) 100)) (fun start => query_asset_whitelist t start limit) /\
      forall fuel, (length W < fuel)%nat -> read_pages fuel (fun start => query_asset_whitelist t start limit) None = Ok W.
Proof. exact whitelist_paging. Qed.
Print Assumptions C43_asset_pages.

Theorem C43_nft_pages : forall t,
  lists_ok t ->
  exists W, NoDup W /\ (forall a, In a W <-> nft_listed t a) /\
    forall limit, limit <> Some 0 ->
      pages_of W (N.to_nat (N.min (dflt 30 limit) 100)) (fun start => query_nft_whitelist t start limit) /\
      forall fuel, (length W < fuel)%nat -> read_pages fuel (fun start => query_nft_whitelist t start limit) None = Ok W.
Proof. exact nft_whitelist_paging. Qed.
Print Assumptions C43_nft_pages.

(** The hypothesis holds for every treasury the contract creates, after any calls. *)
Theorem C43_lists_from_start : forall admin assets nfts t,
  treasury_instantiate admin assets nfts = Ok t ->
  tr_admin t = admin /\ admin <> 0 /\ tr_old t = no_old_dao /\ lists_ok t /\
  (forall a, listed t a <-> In a (dflt [] assets)) /\ (forall n, nft_listed t n <-> In n (dflt [] nfts)).
Proof. exact instantiate_ok. Qed.
Print Assumptions C43_lists_from_start.

Theorem C43_lists_kept : forall t cs,
  lists_ok t -> lists_ok (fst (treasury_run t cs)).
Proof. exact lists_history. Qed.
Print Assumptions C43_lists_kept.

Example C43_nonvacuous :
  lists_ok tr_1155 /\
  read_pages 100 (fun start => query_asset_whitelist tr_1155 start None) None =
  read_pages 100 (fun start => query_asset_whitelist tr_1155 start (Some 1)) None /\
  match read_pages 100 (fun start => query_asset_whitelist tr_1155 start None) None with
  | Ok l => length l = 41%nat | Err _ => False end /\
  query_asset_whitelist tr_1155 (Some (Native 103)) (Some 5) = Ok [Native 104; Cw20 50; Cw20 51; Cw20 52; Cw1155 40 1] /\
  query_nft_whitelist tr_1155 (Some 60) None = Ok [61].
Proof. exact case_pages. Qed.

(** ... an update adds, then removes, and touches nothing else. *)
Theorem C43_update_assets : forall gas t sender add remove t' msgs,
  treasury_execute gas t sender (TrUpdateAssets add remove) = Ok (t', msgs) ->
  sender = tr_admin t /\ msgs = [] /\
  (forall a, listed t' a <-> (listed t a \/ In a add) /\ ~ In a remove) /\
  tr_nfts t' = tr_nfts t /\ tr_admin t' = tr_admin t /\ tr_old t' = tr_old t.
Proof. exact update_assets_ok. Qed.
Print Assumptions C43_update_assets.

Theorem C43_update_assets_accepted : forall gas t sender add remove,
  is_ok (treasury_execute gas t sender (TrUpdateAssets add remove)) = true <->
  sender = tr_admin t /\ Forall addable add /\ Forall valid_asset remove.
Proof. exact update_assets_accepted. Qed.
Print Assumptions C43_update_assets_accepted.

Theorem C43_update_nfts : forall gas t sender add remove t' msgs,
  treasury_execute gas t sender (TrUpdateNfts add remove) = Ok (t', msgs) ->
  sender = tr_admin t /\ msgs = [] /\
  (forall a, nft_listed t' a <-> (nft_listed t a \/ In a add) /\ ~ In a remove) /\
  tr_natives t' = tr_natives t /\ tr_cw20s t' = tr_cw20s t /\ tr_cw1155s t' = tr_cw1155s t /\
  tr_admin t' = tr_admin t /\ tr_old t' = tr_old t.
Proof. exact update_nfts_ok. Qed.
Print Assumptions C43_update_nfts.

Example C43_update_nonvacuous :
  match treasury_execute 0 tr_1155 3 (TrUpdateAssets [Cw20 50; Cw20 53; Native 7] [Cw20 53; Cw1155 40 5; Native 70]) with
  | Ok (t, _) => query_asset_whitelist t (Some (Cw20 49)) None = Ok [Cw20 50; Cw20 51; Cw20 52; Cw1155 40 1; Cw1155 41 2] /\
                 query_asset_whitelist t None (Some 2) = Ok [Native 7; Native 71]
  | Err _ => False
  end /\
  treasury_execute 0 tr_1155 3 (TrUpdateAssets [Cw1155 42 1] []) = Err EStd.
Proof. exact case_update. Qed.

(** C18, with the distributor reading this treasury's list. *)
Theorem C18_only_treasury_listed : forall t fuel global restricted f sender coins m f' ps,
  lists_ok t ->
  funds_execute (mk_foracle (treasury_whitelist t fuel global) restricted) f sender coins m = Ok (f', ps) ->
  forall a A, In (a, A) (handed_over f (mk_fcall (mk_foracle (treasury_whitelist t fuel global) restricted) sender coins m)) ->
  listed t a \/ In a global.
Proof. exact only_whitelisted_treasury. Qed.
Print Assumptions C18_only_treasury_listed.

Theorem C18_refused_iff_not_treasury_listed : forall t W fuel global restricted f sender coins m,
  lists_ok t -> NoDup W -> (forall a, In a W <-> listed t a) -> (length W <= fuel)%nat ->
  (m = FDistributeNative \/ exists x, m = FReceive x true) ->
  let assets := match m with FDistributeNative => map (fun c : coin => Native (fst c)) coins | _ => [Cw20 sender] end in
  funds_execute (mk_foracle (treasury_whitelist t fuel global) restricted) f sender coins m = Err EAssetNotWhitelisted <->
  ~ (forall a, In a assets -> listed t a \/ In a global).
Proof. exact whitelisted_accepted_treasury. Qed.
Print Assumptions C18_refused_iff_not_treasury_listed.

Example C18_treasury_nonvacuous :
  lists_ok tr_1155 /\ is_ok (funds_execute (mk_foracle (treasury_whitelist tr_1155 100 [Native 8]) (fun _ => false)) (b_funds ex_books) 8 [(104, 5); (8, 1)] FDistributeNative) = true /\ is_ok (funds_execute (mk_foracle (treasury_whitelist tr_1155 100 []) (fun _ => false)) (b_funds ex_books) 52 [] (FReceive 9 true)) = true /\ funds_execute (mk_foracle (treasury_whitelist tr_1155 100 []) (fun _ => false)) (b_funds ex_books) 8 [(104, 5); (8, 1)] FDistributeNative =
    Err EAssetNotWhitelisted.
Proof. exact case_treasury_whitelist. Qed.

(** C44: one step on a token DAO. [ms] and [mc] are the stakes and claims it moves: the first ones of the tables. *)
Theorem C44_token_step : forall gas o limit o' msgs,
  typed_limit limit -> og_type o = Some DaoToken ->
  migration_step gas o limit = Ok (o', msgs) ->
  exists token membership ms mc,
    og_contract o = Some token /\ og_info o = Some (Some membership) /\
    elems (og_stakes o) = ms ++ elems (og_stakes o') /\
    token_claims (elems (og_claims o)) = mc ++ token_claims (elems (og_claims o')) /\
    nft_claims (elems (og_claims o')) = nft_claims (elems (og_claims o)) /\
    msgs = (if lsum snd ms =? 0 then []
            else [plain (WasmExecute token (ToCw20 (Cw20Send membership (lsum snd ms) (HookMember (HAddStakes ms)))) [])]) ++
           (if lsum claim_amount mc =? 0 then []
            else [plain (WasmExecute token (ToCw20 (Cw20Send membership (lsum claim_amount mc) (HookMember (HAddClaims mc)))) [])]) /\
    lsum snd ms < M128 /\ lsum claim_amount mc < M128 /\
    N.of_nat (length ms) = N.min (step_limit DaoToken limit) (N.of_nat (length (elems (og_stakes o)))) /\
    N.of_nat (length ms + length mc) <= step_limit DaoToken limit /\
    (og_stage o' = Some MigrationCompleted /\ elems (og_stakes o') = [] /\ elems (og_claims o') = [] /\
       N.of_nat (length ms + length mc) < step_limit DaoToken limit \/
     og_stage o' = Some MigrationInProgress /\ N.of_nat (length ms + length mc) = step_limit DaoToken limit) /\
    (forall u, ogetN (og_migrated o') u = credited (og_migrated o) ms u) /\
    og_nfts o' = og_nfts o /\ same_rest o o'.
Proof. exact token_migration_step. Qed.
Print Assumptions C44_token_step.

(** ... over any history of calls: what was sent, and then what is left, is what there was (entries of zero set aside). *)
Theorem C44_token_history : forall cs,
  forall t t' msgs,
  og_type (tr_old t) = Some DaoToken -> Forall typed_call cs -> Forall not_custom cs -> treasury_run t cs = (t', msgs) ->
  filter positive_stake (flat_map stakes_in msgs) ++ filter positive_stake (elems (og_stakes (tr_old t'))) =
    filter positive_stake (elems (og_stakes (tr_old t))) /\
  filter positive_claim (flat_map claims_in msgs) ++ filter positive_claim (token_claims (elems (og_claims (tr_old t')))) =
    filter positive_claim (token_claims (elems (og_claims (tr_old t)))) /\
  flat_map nft_stake_in msgs = [] /\ flat_map nft_claim_in msgs = [] /\
  og_nfts (tr_old t') = og_nfts (tr_old t) /\
  nft_claims (elems (og_claims (tr_old t'))) = nft_claims (elems (og_claims (tr_old t))) /\ same_rest (tr_old t) (tr_old t').
Proof. exact token_history. Qed.
Print Assumptions C44_token_history.

(** ... and enough steps bring it to its end. *)
Theorem C44_token_completes : forall gas cs,
  forall t, token_ready gas (tr_old t) -> Forall (steps_well DaoToken gas) cs ->
  (token_items (tr_old t) < length cs)%nat -> finished (tr_old (fst (treasury_run t cs))).
Proof. exact token_completes. Qed.
Print Assumptions C44_token_completes.

Example C44_token_nonvacuous :
  token_ready 10 old_token /\ (token_items old_token = 8)%nat /\
  Forall (steps_well DaoToken 10) (repeat (step_call 900 (Some 1)) 9) /\
  Forall typed_call tr_calls /\ Forall not_custom tr_calls /\
  stage_of (treasury_run tr_token (firstn 5 tr_calls)) = Some MigrationInProgress /\
  finished (tr_old (fst (treasury_run tr_token tr_calls))) /\
  flat_map stakes_in (snd (treasury_run tr_token tr_calls)) = [(101, 30); (102, 0); (103, 50); (104, 7)] /\
  flat_map claims_in (snd (treasury_run tr_token tr_calls)) =
    [(101, 5, RHeight 9); (101, 6, RTimestamp 77); (105, 0, RHeight 3); (105, 8, RHeight 12)].
Proof. exact case_token_migration. Qed.

(** The same for an NFT DAO with fewer than 2^32 NFTs. *)
Theorem C44_nft_step : forall gas o limit o' msgs,
  typed_limit limit -> og_type o = Some DaoNft ->
  N.of_nat (length (elems (og_nfts o)) + length (nft_claims (elems (og_claims o)))) < M32 ->
  migration_step gas o limit = Ok (o', msgs) ->
  exists collection membership ms mc,
    og_contract o = Some collection /\ og_info o = Some (Some membership) /\
    elems (og_nfts o) = ms ++ elems (og_nfts o') /\
    nft_claims (elems (og_claims o)) = mc ++ nft_claims (elems (og_claims o')) /\
    (exists j, elems (og_claims o') = skipn j (elems (og_claims o))) /\
    msgs = map (fun x : N * (addr * N) =>
                  plain (WasmExecute collection (ToCw721 (Cw721Send membership (snd (snd x)) (NStake (fst (snd x))))) [])) ms ++
           map (fun x : N * N * release_at =>
                  plain (WasmExecute collection (ToCw721 (Cw721Send membership (snd (fst x)) (NAddClaim (fst (fst x)) (snd x)))) [])) mc /\
    N.of_nat (length ms) = N.min (step_limit DaoNft limit) (N.of_nat (length (elems (og_nfts o)))) /\
    (og_stage o' = Some MigrationCompleted /\ elems (og_nfts o') = [] /\ elems (og_claims o') = [] /\
       N.of_nat (length ms + length mc) < step_limit DaoNft limit \/
     og_stage o' = Some MigrationInProgress /\ step_limit DaoNft limit <= N.of_nat (length ms + length mc)) /\
    (forall u, ogetN (og_migrated o') u =
               ogetN (og_migrated o) u + lsum (fun x : N * (addr * N) => if fst (snd x) =? u then 1 else 0) ms) /\
    og_stakes o' = og_stakes o /\ same_rest o o'.
Proof. exact nft_migration_step. Qed.
Print Assumptions C44_nft_step.

Theorem C44_nft_history : forall cs,
  forall t t' msgs,
  og_type (tr_old t) = Some DaoNft -> nft_items (tr_old t) < M32 ->
  Forall typed_call cs -> Forall not_custom cs -> treasury_run t cs = (t', msgs) ->
  flat_map nft_stake_in msgs ++ map snd (elems (og_nfts (tr_old t'))) = map snd (elems (og_nfts (tr_old t))) /\
  flat_map nft_claim_in msgs ++ nft_claims (elems (og_claims (tr_old t'))) = nft_claims (elems (og_claims (tr_old t))) /\
  flat_map stakes_in msgs = [] /\ flat_map claims_in msgs = [] /\
  og_stakes (tr_old t') = og_stakes (tr_old t) /\ same_rest (tr_old t) (tr_old t').
Proof. exact nft_history. Qed.
Print Assumptions C44_nft_history.

Theorem C44_nft_completes : forall gas cs,
  forall t, nft_ready gas (tr_old t) -> Forall (steps_well DaoNft gas) cs ->
  nft_items (tr_old t) < N.of_nat (length cs) -> finished (tr_old (fst (treasury_run t cs))).
Proof. exact nft_completes. Qed.
Print Assumptions C44_nft_completes.

Example C44_nft_nonvacuous :
  nft_ready 10 old_nft /\ nft_items old_nft = 6 /\
  Forall (steps_well DaoNft 10) (repeat (step_call 900 (Some 1)) 7) /\
  stage_of (treasury_run tr_nft (firstn 3 tr_calls)) = Some MigrationInProgress /\
  finished (tr_old (fst (treasury_run tr_nft tr_calls))) /\
  flat_map nft_stake_in (snd (treasury_run tr_nft tr_calls)) = [(101, 1); (102, 2); (101, 3)] /\
  flat_map nft_claim_in (snd (treasury_run tr_nft tr_calls)) = [(101, 11, RHeight 9); (101, 12, RHeight 9); (105, 13, RHeight 12)].
Proof. exact case_nft_migration. Qed.

(** A multisig DAO has nothing to move. *)
Theorem C44_multisig_step : forall gas o limit o' msgs,
  og_type o = Some DaoMultisig ->
  migration_step gas o limit = Ok (o', msgs) ->
  msgs = [] /\ o' = og_set_stage o (if 0 <? step_limit DaoMultisig limit then MigrationCompleted else MigrationInProgress).
Proof. exact multisig_migration_step. Qed.
Print Assumptions C44_multisig_step.

Example C44_multisig_nonvacuous :
  og_type old_multisig = Some DaoMultisig /\
  match migration_step 0 old_multisig None with Ok (o, msgs) => msgs = [] /\ og_stage o = Some MigrationCompleted | Err _ => False end.
Proof. exact case_multisig_migration. Qed.

(** Every message of a step sends the old membership token to the new membership contract, with the amount it announces. *)
Theorem C44_step_messages : forall gas o limit o' msgs,
  typed_limit limit -> migration_step gas o limit = Ok (o', msgs) ->
  same_rest o o' /\
  Forall (fun m => exists c membership, og_contract o = Some c /\ og_info o = Some (Some membership) /\ migration_msg c membership m) msgs.
Proof. exact migration_step_msgs. Qed.
Print Assumptions C44_step_messages.

(** Completed means nothing is left, and then every further step is refused. *)
Theorem C44_completed_means_done : forall gas o limit o' msgs,
  typed_limit limit -> (og_type o = Some DaoNft -> nft_items o < M32) -> migration_step gas o limit = Ok (o', msgs) ->
  og_stage o' = Some MigrationCompleted ->
  (og_type o = Some DaoToken -> elems (og_stakes o') = [] /\ elems (og_claims o') = []) /\
  (og_type o = Some DaoNft -> elems (og_nfts o') = [] /\ elems (og_claims o') = []).
Proof. exact completed_means_done. Qed.
Print Assumptions C44_completed_means_done.

Theorem C44_completed_stays : forall gas o limit,
  finished o -> migration_step gas o limit = Err EInvalidState.
Proof. exact finished_stays. Qed.
Print Assumptions C44_completed_stays.

(** The membership contract takes a batch of stakes in whole, unless a staker in it is restricted: then it refuses it, and with it the step. *)
Theorem C44_stakes_taken_in : forall o s e token l,
  st_asset s = Cw20 token -> Forall (welcome o) l ->
  (forall u, member_weight (st_members s) u <= total_weight (st_members s)) ->
  total_weight (st_members s) + lsum snd l < M128 ->
  exists s' outs, token_receive o s e token (lsum snd l) (HAddStakes l) = Ok (s', outs) /\
    (forall u, member_weight (st_members s') u =
               member_weight (st_members s) u + lsum (fun x => if fst x =? u then snd x else 0) l) /\
    total_weight (st_members s') = total_weight (st_members s) + lsum snd l.
Proof. exact stakes_taken_in. Qed.
Print Assumptions C44_stakes_taken_in.

Theorem C44_restricted_member_blocks : forall o s e token l u a,
  st_asset s = Cw20 token -> In (u, a) l -> a <> 0 -> mo_restricted o u = Ok true ->
  forall r, token_receive o s e token (lsum snd l) (HAddStakes l) <> Ok r.
Proof. exact stakes_refused. Qed.
Print Assumptions C44_restricted_member_blocks.

Example C44_taken_in_nonvacuous :
  Forall (welcome recv_oracle) [(101, 30); (102, 0); (103, 50)] /\
  (forall u, member_weight (st_members recv_state) u <= total_weight (st_members recv_state)) /\
  is_ok (token_receive recv_oracle recv_state (mk_env 10 10) 50 80 (HAddStakes [(101, 30); (102, 0); (103, 50)])) = true /\
  token_receive recv_oracle recv_state (mk_env 10 10) 50 81 (HAddStakes [(101, 30); (666, 1); (103, 50)]) = Err ERestricted.
Proof. exact case_received. Qed.

(** Limits of the claim. If a token DAO's table holds an NFT claim, the last step never succeeds. *)
Theorem C44_foreign_claim_blocks : forall gas o limit,
  typed_limit limit -> og_type o = Some DaoToken ->
  nft_claims (elems (og_claims o)) <> [] -> N.of_nat (token_items o) < step_limit DaoToken limit ->
  forall r, migration_step gas o limit <> Ok r.
Proof. exact token_stuck. Qed.
Print Assumptions C44_foreign_claim_blocks.

Theorem C44_foreign_claim_blocks_refuted :
  exists o, og_type o = Some DaoToken /\ og_stage o = Some MigrationInProgress /\ og_info o = Some (Some 7) /\
    (exists c, og_contract o = Some c) /\ token_amounts o < M128 /\
    forall gas limit, typed_limit limit -> N.of_nat (token_items o) < step_limit DaoToken limit -> forall r, migration_step gas o limit <> Ok r.
Proof. exact foreign_claim_blocks. Qed.
Print Assumptions C44_foreign_claim_blocks_refuted.

(** If an NFT DAO's table holds a token claim, it is lost. *)
Theorem C44_foreign_claim_lost_refuted :
  exists o gas o' msgs, og_type o = Some DaoNft /\ nft_items o < M32 /\
    migration_step gas o None = Ok (o', msgs) /\ finished o' /\
    token_claims (elems (og_claims o)) = [(101, 5, RHeight 9)] /\ flat_map claims_in msgs = [].
Proof. exact foreign_claim_lost. Qed.
Print Assumptions C44_foreign_claim_lost_refuted.

(** A step on an NFT DAO may send more NFTs than its limit. *)
Example C44_limit_exceeded :
  match migration_step 3 (og_set_nfts old_nft oempty oempty) (Some 1) with
  | Ok (_, msgs) => length msgs = 2%nat
  | Err _ => False
  end.
Proof. exact case_limit_exceeded. Qed.

(** C63: whatever calls are made, the weights the treasury reports for the old DAO's members do not change. *)
Theorem C63_old_weights_constant : forall cs,
  forall t,
  Forall typed_call cs -> (og_type (tr_old t) = Some DaoNft -> nft_items (tr_old t) < M32) -> disjoint_weights (tr_old t) ->
  (forall u, query_old_user_weight (fst (treasury_run t cs)) u = query_old_user_weight t u) /\
  (forall x, query_old_total_weight (fst (treasury_run t cs)) x = query_old_total_weight t x).
Proof. exact weights_history. Qed.
Print Assumptions C63_old_weights_constant.

Example C63_nonvacuous :
  disjoint_weights old_token /\
  query_old_user_weight (fst (treasury_run tr_token (firstn 1 tr_calls))) 101 = Ok 30 /\
  query_old_user_weight (fst (treasury_run tr_token tr_calls)) 103 = Ok 50 /\
  query_old_user_weight (fst (treasury_run tr_nft tr_calls)) 101 = Ok 2 /\
  query_old_total_weight (fst (treasury_run tr_token tr_calls)) Never = Ok 87.
Proof. exact case_old_weights. Qed.
