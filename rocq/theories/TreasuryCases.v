(** Witnesses for the treasury theorems, and what goes wrong. *)
From Verif Require Import Base OMap Assets FundsModel FundsSpec FundsExamples MemberModel Msgs TreasuryModel TreasurySpec TreasuryExamples TreasuryFacts MigrationFacts.

Definition stage_of (r : treasury * list sub_msg) : option migration_stage := og_stage (tr_old (fst r)).
Definition left_in (r : treasury * list sub_msg) : bool := has_unmoved (tr_old (fst r)).

(** C42 *)
Lemma case_spend :
  treasury_execute 0 tr_new 900 (TrSpend 900 [(Native 70, 5)]) = Err EUnauthorized /\
  is_ok (treasury_execute 0 tr_new 3 (TrSpend 900 [(Native 70, 5); (Cw20 50, 6)])) = true /\
  treasury_execute 0 tr_new 3 (TrSpend 900 [(Native 70, 5); (Cw1155 40 1, 6)]) = Err EStd /\
  (exists t', treasury_execute 0 tr_new 3 (TrDistribute [(Cw20 50, 9); (Native 70, 5); (Native 71, 6)] 6) =
     Ok (t', [plain (WasmExecute 50 (ToCw20 (Cw20Send 6 9 HookDistribute)) []);
              plain (WasmExecute 6 (ToFunds FDistributeNative) [(70, 5); (71, 6)])])) /\
  treasury_execute 0 tr_new 3 (TrExecute [Some (BankSend 9 [(70, 1)]); None]) = Err EInvalidArgument.
Proof. do 3 (split; [vm_compute; reflexivity|]). split; [eexists|]; vm_compute; reflexivity. Qed.

Definition strangers : list treasury_call :=
  [ step_call 900 (Some 3); mk_tcall 0 900 (TrSpend 900 [(Native 70, 5)]); mk_tcall 0 900 (TrSetAdmin 900); step_call 901 (Some 2) ].
Lemma case_strangers :
  Forall (fun c => tc_sender c <> tr_admin tr_token /\ match tc_msg c with TrMigrationStep l => typed_limit l | _ => True end) strangers /\
  length (snd (treasury_run tr_token strangers)) = 3%nat /\
  treasury_instantiate 3 (Some [Native 70; Cw20 50]) (Some [60]) <> Err EInvalidArgument /\
  length (snd (treasury_run tr_new (strangers ++ [mk_tcall 0 3 (TrSpend 900 [(Native 70, 5)])]))) = 1%nat.
Proof.
  split; [repeat constructor; vm_compute; discriminate|]. split; [vm_compute; reflexivity|].
  split; [vm_compute; discriminate|vm_compute; reflexivity].
Qed.

(** C43 *)
Lemma case_pages :
  lists_ok tr_1155 /\
  read_pages 100 (fun start => query_asset_whitelist tr_1155 start None) None =
  read_pages 100 (fun start => query_asset_whitelist tr_1155 start (Some 1)) None /\
  match read_pages 100 (fun start => query_asset_whitelist tr_1155 start None) None with
  | Ok l => length l = 41%nat | Err _ => False end /\
  query_asset_whitelist tr_1155 (Some (Native 103)) (Some 5) = Ok [Native 104; Cw20 50; Cw20 51; Cw20 52; Cw1155 40 1] /\
  query_nft_whitelist tr_1155 (Some 60) None = Ok [61].
Proof. split; [repeat split|]. do 3 (split; [vm_compute; reflexivity|]). vm_compute. reflexivity. Qed.

Lemma case_update :
  match treasury_execute 0 tr_1155 3 (TrUpdateAssets [Cw20 50; Cw20 53; Native 7] [Cw20 53; Cw1155 40 5; Native 70]) with
  | Ok (t, _) => query_asset_whitelist t (Some (Cw20 49)) None = Ok [Cw20 50; Cw20 51; Cw20 52; Cw1155 40 1; Cw1155 41 2] /\
                 query_asset_whitelist t None (Some 2) = Ok [Native 7; Native 71]
  | Err _ => False
  end /\
  treasury_execute 0 tr_1155 3 (TrUpdateAssets [Cw1155 42 1] []) = Err EStd.
Proof. split; [vm_compute; split; reflexivity|vm_compute; reflexivity]. Qed.

(** C44 *)
Lemma token_only_small : token_only (elems (og_claims old_token)).
Proof.
  intros u cs c Hin Hc. vm_compute in Hin.
  destruct Hin as [E|[E|[]]]; inversion E; subst; destruct Hc as [Hc|[Hc|[]]]; subst; eexists; reflexivity.
Qed.

Lemma case_token_migration :
  token_ready 10 old_token /\ (token_items old_token = 8)%nat /\
  Forall (steps_well DaoToken 10) (repeat (step_call 900 (Some 1)) 9) /\
  Forall typed_call tr_calls /\ Forall not_custom tr_calls /\
  stage_of (treasury_run tr_token (firstn 5 tr_calls)) = Some MigrationInProgress /\
  finished (tr_old (fst (treasury_run tr_token tr_calls))) /\
  flat_map stakes_in (snd (treasury_run tr_token tr_calls)) = [(101, 30); (102, 0); (103, 50); (104, 7)] /\
  flat_map claims_in (snd (treasury_run tr_token tr_calls)) =
    [(101, 5, RHeight 9); (101, 6, RTimestamp 77); (105, 0, RHeight 3); (105, 8, RHeight 12)].
Proof.
  split.
  { split; [reflexivity|]. split; [eexists; reflexivity|]. split; [eexists; reflexivity|]. split; [exact token_only_small|].
    split; [vm_compute; lia|]. split; [vm_compute; reflexivity|]. split; reflexivity. }
  split; [reflexivity|]. split.
  { apply Forall_forall. intros c Hc. apply repeat_spec in Hc. subst. exists (Some 1). repeat split; vm_compute; (reflexivity || lia). }
  split; [repeat constructor|]. split; [repeat constructor|].
  split; [vm_compute; reflexivity|]. split; [vm_compute; repeat split|]. split; vm_compute; reflexivity.
Qed.

Lemma case_nft_migration :
  nft_ready 10 old_nft /\ nft_items old_nft = 6 /\
  Forall (steps_well DaoNft 10) (repeat (step_call 900 (Some 1)) 7) /\
  stage_of (treasury_run tr_nft (firstn 3 tr_calls)) = Some MigrationInProgress /\
  finished (tr_old (fst (treasury_run tr_nft tr_calls))) /\
  flat_map nft_stake_in (snd (treasury_run tr_nft tr_calls)) = [(101, 1); (102, 2); (101, 3)] /\
  flat_map nft_claim_in (snd (treasury_run tr_nft tr_calls)) = [(101, 11, RHeight 9); (101, 12, RHeight 9); (105, 13, RHeight 12)].
Proof.
  split.
  { split; [reflexivity|]. split; [eexists; reflexivity|]. split; [eexists; reflexivity|]. split; [vm_compute; reflexivity|].
    split; [vm_compute; lia|]. split; [intros u; vm_compute; reflexivity|]. split; reflexivity. }
  split; [reflexivity|]. split.
  { apply Forall_forall. intros c Hc. apply repeat_spec in Hc. subst. exists (Some 1). repeat split; vm_compute; (reflexivity || lia). }
  split; [vm_compute; reflexivity|]. split; [vm_compute; repeat split|]. split; vm_compute; reflexivity.
Qed.

Lemma case_multisig_migration :
  og_type old_multisig = Some DaoMultisig /\
  match migration_step 0 old_multisig None with Ok (o, msgs) => msgs = [] /\ og_stage o = Some MigrationCompleted | Err _ => False end.
Proof. vm_compute. repeat split. Qed.

(** A token DAO whose table holds an NFT claim. *)
Definition old_mixed : old_dao :=
  og_set_claims old_token (of_list [(101, [mk_old_claim (LCw20 5) (RHeight 9); mk_old_claim (LCw721 [4]) (RHeight 9)])]).
Lemma foreign_claim_blocks :
  exists o, og_type o = Some DaoToken /\ og_stage o = Some MigrationInProgress /\ og_info o = Some (Some 7) /\
    (exists c, og_contract o = Some c) /\ token_amounts o < M128 /\
    forall gas limit, typed_limit limit -> N.of_nat (token_items o) < step_limit DaoToken limit -> forall r, migration_step gas o limit <> Ok r.
Proof.
  exists old_mixed. do 3 (split; [reflexivity|]). split; [eexists; reflexivity|]. split; [vm_compute; reflexivity|].
  intros gas limit Hl Hlt. apply token_stuck; [assumption|reflexivity| |assumption]. vm_compute. discriminate.
Qed.

(** An NFT DAO whose table holds a token claim: the step forgets it. *)
Definition old_nft_mixed : old_dao :=
  og_set_claims old_nft (of_list [(101, [mk_old_claim (LCw20 5) (RHeight 9); mk_old_claim (LCw721 [11]) (RHeight 9)])]).
Lemma foreign_claim_lost :
  exists o gas o' msgs, og_type o = Some DaoNft /\ nft_items o < M32 /\
    migration_step gas o None = Ok (o', msgs) /\ finished o' /\
    token_claims (elems (og_claims o)) = [(101, 5, RHeight 9)] /\ flat_map claims_in msgs = [].
Proof.
  exists old_nft_mixed, 3%nat. do 2 eexists. split; [reflexivity|]. split; [vm_compute; reflexivity|].
  split; [vm_compute; reflexivity|]. split; [repeat split|]. split; vm_compute; reflexivity.
Qed.

(** The limit of a step is not a bound on the NFTs it sends. *)
Lemma case_limit_exceeded :
  match migration_step 3 (og_set_nfts old_nft oempty oempty) (Some 1) with
  | Ok (_, msgs) => length msgs = 2%nat
  | Err _ => False
  end.
Proof. vm_compute. reflexivity. Qed.

(** C63 *)
Lemma case_old_weights :
  disjoint_weights old_token /\
  query_old_user_weight (fst (treasury_run tr_token (firstn 1 tr_calls))) 101 = Ok 30 /\
  query_old_user_weight (fst (treasury_run tr_token tr_calls)) 103 = Ok 50 /\
  query_old_user_weight (fst (treasury_run tr_nft tr_calls)) 101 = Ok 2 /\
  query_old_total_weight (fst (treasury_run tr_token tr_calls)) Never = Ok 87.
Proof.
  split; [intros _ u v _; reflexivity|]. do 3 (split; [vm_compute; reflexivity|]). vm_compute. reflexivity.
Qed.

(** The membership contract's side *)
Definition recv_oracle : member_oracle := mk_moracle (fun u => Ok (u =? 666)) (Ok 3) (Ok None).
Definition recv_state : staking := mk_staking (mk_members 2 (of_list [(101, 4)]) (mk_snap (Some 4) oempty) (mk_snap (Some 4) oempty) oempty)
  (Cw20 50) (DTime 100) 0 oempty.
Lemma case_received :
  Forall (welcome recv_oracle) [(101, 30); (102, 0); (103, 50)] /\
  (forall u, member_weight (st_members recv_state) u <= total_weight (st_members recv_state)) /\
  is_ok (token_receive recv_oracle recv_state (mk_env 10 10) 50 80 (HAddStakes [(101, 30); (102, 0); (103, 50)])) = true /\
  token_receive recv_oracle recv_state (mk_env 10 10) 50 81 (HAddStakes [(101, 30); (666, 1); (103, 50)]) = Err ERestricted.
Proof.
  split; [repeat constructor; cbn; discriminate|]. split.
  - intros u. unfold member_weight. change (m_weights (st_members recv_state)) with (oset (@oempty N) 101 4). rewrite OMapLemmas.ogetN_oset.
    destruct (101 =? u); vm_compute; discriminate.
  - split; vm_compute; reflexivity.
Qed.

(** C18 *)
Lemma case_treasury_whitelist :
  lists_ok tr_1155 /\ is_ok (funds_execute (mk_foracle (treasury_whitelist tr_1155 100 [Native 8]) (fun _ => false)) (b_funds ex_books) 8 [(104, 5); (8, 1)] FDistributeNative) = true /\ is_ok (funds_execute (mk_foracle (treasury_whitelist tr_1155 100 []) (fun _ => false)) (b_funds ex_books) 52 [] (FReceive 9 true)) = true /\ funds_execute (mk_foracle (treasury_whitelist tr_1155 100 []) (fun _ => false)) (b_funds ex_books) 8 [(104, 5); (8, 1)] FDistributeNative =
    Err EAssetNotWhitelisted.
Proof. split; [repeat split|]. do 2 (split; [vm_compute; reflexivity|]). vm_compute. reflexivity. Qed.
