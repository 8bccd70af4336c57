(** C81, C82: members can always leave and take along what is theirs. *)
From Verif Require Import Base OMap OMapLemmas Assets PollModel FundsModel FundsSpec MemberModel MemberSpec Msgs ControllerModel ControllerSpec
  TreasuryModel EnterpriseModel OutpostsModel FactoryModel FactorySpec FactoryExamples WorldModel WorldSpec WorldExamples CreationModel
  CreationFacts CreationCases LedgerSpec LedgerExamples LedgerCases RewardSpec RewardCases ExitSpec ExitFacts ExitStart ExitCases.

(** C81: whatever has happened, a member who unstakes what they have staked is not refused: through the membership contract, the controller,
    the open polls and the funds distributor the transaction succeeds, and it changes nothing else. *)
Theorem C81_unstake : forall X (Out : outside X) A w0 ts w minimum initial u amount st e gas,
  new_dao A w0 ->
  funds_instantiate (a_controller A) (a_enterprise A) minimum initial = Ok (w_funds w0) -> weights_covered w0 u ->
  w = world_run Out A w0 ts -> timely 0 ts -> lasting w -> calm A w -> undisturbed A w -> free_calls Out -> rewards_fit w ->
  fungible (w_member w) st -> amount <= weight_of (w_member w) u -> unlockable e (st_period st) (st_next_claim st) ->
  last_time ts <= e_time e -> is_dao A u = false -> u <> 0 -> (7 <= gas)%nat ->
  exists w' st', world_tx Out A w (mk_tx gas e u (to_membership A (unstaking (w_member w) amount))) = Ok w' /\ fungible (w_member w') st' /\
    (forall v, weight_of (w_member w') v = if v =? u then weight_of (w_member w) u - amount else weight_of (w_member w) v) /\
    st_claims st' = oset (st_claims st) (st_next_claim st) (mk_claim (st_next_claim st) u amount (release_computed e (st_period st))) /\
    rest_same w w'.
Proof. exact unstake_goes_through. Qed.
Print Assumptions C81_unstake.

Example C81_unstake_nonvacuous :
  let w := world_run chain dao_at (ledger_dao false) token_story in
  new_dao dao_at (ledger_dao false) /\ funds_instantiate 3 1 None [] = Ok (w_funds (ledger_dao false)) /\ weights_covered (ledger_dao false) 11 /\
  timely 0 token_story /\ lasting w /\ calm dao_at w /\ undisturbed dao_at w /\ free_calls chain /\ rewards_fit w /\ fungible (w_member w) token_end /\
  weight_of (w_member w) 11 = 180 /\ unlockable (clock 2090) (st_period token_end) (st_next_claim token_end) /\
  last_time token_story <= e_time (clock 2090) /\
  match world_tx chain dao_at w (mk_tx 7 (clock 2090) 11 (to_membership dao_at (unstaking (w_member w) 180))) with
  | Ok w' => weight_of (w_member w') 11 = 0 /\ reward_weight w' 11 = 0
  | Err _ => False
  end.
Proof. exact unstake_case. Qed.

(** The same for NFTs. *)
Theorem C81_unstake_nfts : forall X (Out : outside X) A w0 ts w minimum initial u tokens st e gas,
  new_dao A w0 ->
  funds_instantiate (a_controller A) (a_enterprise A) minimum initial = Ok (w_funds w0) -> weights_covered w0 u ->
  w = world_run Out A w0 ts -> timely 0 ts -> lasting w -> calm A w -> undisturbed A w -> free_calls Out -> rewards_fit w ->
  w_member w = MNft st -> NoDup tokens -> (forall t, In t tokens -> oget (ns_stakes st) t = Some u) -> unlockable e (ns_period st) (ns_next_claim st) ->
  last_time ts <= e_time e -> is_dao A u = false -> u <> 0 -> (7 <= gas)%nat ->
  exists w' st', world_tx Out A w (mk_tx gas e u (to_membership A (NftMsg (NUnstake tokens)))) = Ok w' /\ w_member w' = MNft st' /\
    (forall v, weight_of (w_member w') v = if v =? u then weight_of (w_member w) u - N.of_nat (length tokens) else weight_of (w_member w) v) /\
    ns_claims st' = oset (ns_claims st) (ns_next_claim st) (mk_nft_claim (ns_next_claim st) u tokens (release_computed e (ns_period st))) /\
    rest_same w w'.
Proof. exact unstake_nfts_goes_through. Qed.
Print Assumptions C81_unstake_nfts.

Example C81_nfts_nonvacuous :
  let w := world_run chain dao_at (ledger_dao true) nft_story in
  new_dao dao_at (ledger_dao true) /\ funds_instantiate 3 1 None [] = Ok (w_funds (ledger_dao true)) /\ weights_covered (ledger_dao true) 11 /\
  timely 0 nft_story /\ lasting w /\ calm dao_at w /\ undisturbed dao_at w /\ rewards_fit w /\ w_member w = MNft nft_end /\ ns_contract nft_end = NCw721 91 /\
  oget (ns_stakes nft_end) 3 = Some 11 /\ unlockable (clock 2090) (ns_period nft_end) (ns_next_claim nft_end) /\
  due_nfts (clock 2090) 12 nft_end = [5] /\ good_ledger chain dao_at (a_membership dao_at) (HNft 91 5) (has 7 (HNft 91 5)) /\
  foreign dao_at (HNft 91 0) nft_story /\
  is_ok (world_tx chain dao_at w (mk_tx 7 (clock 2090) 11 (to_membership dao_at (NftMsg (NUnstake [3]))))) = true /\
  match world_tx chain dao_at w (mk_tx 4 (clock 2090) 12 (to_membership dao_at (claiming (w_member w)))) with
  | Ok w' => bk_nft (w_ext w) 91 5 = 7 /\ bk_nft (w_ext w') 91 5 = 12
  | Err _ => False
  end.
Proof. exact nft_case. Qed.

(** In a DAO created by the factory nothing has to be assumed about the start. *)
Theorem C81_created : forall X (Out : outside X) (x : X) o s sender m v fresh s' log eo eb b,
  fa_tx s (mk_fa_call o sender (FaCreate m v) fresh) = Ok (s', log) -> NoDup fresh -> births_of eo eb (fo_self o) log = Ok b ->
  exists d w0, assigned m fresh d /\ dao_of d b x = Some w0 /\
    forall ts u amount st e gas, let A := addrs_of d in let w := world_run Out A w0 ts in
      timely 0 ts -> lasting w -> calm A w -> undisturbed A w -> free_calls Out -> rewards_fit w ->
      fungible (w_member w) st -> amount <= weight_of (w_member w) u -> unlockable e (st_period st) (st_next_claim st) ->
      last_time ts <= e_time e -> is_dao A u = false -> u <> 0 -> (7 <= gas)%nat ->
      exists w', world_tx Out A w (mk_tx gas e u (to_membership A (unstaking (w_member w) amount))) = Ok w' /\
        weight_of (w_member w') u = weight_of (w_member w) u - amount.
Proof. exact created_exit. Qed.
Print Assumptions C81_created.

Example C81_created_nonvacuous :
  let A := addrs_of made_token in
  fresh_token = Some fresh_start /\
  exists st, let w := world_run idle A fresh_start first_stake in
    timely 0 first_stake /\ lasting w /\ calm A w /\ undisturbed A w /\ free_calls idle /\ rewards_fit w /\ fungible (w_member w) st /\ weight_of (w_member w) 61 = 30 /\
    match world_tx idle A w (mk_tx 7 (clock 70) 61 (to_membership A (unstaking (w_member w) 20))) with
    | Ok w' => weight_of (w_member w') 61 = 10
    | Err _ => False
    end.
Proof. exact created_case. Qed.

(** That rewards fit their type follows if the assets distributed have honest ledgers with less than 2^128 in circulation ... *)
Theorem C81_rewards_fit : forall X (Out : outside X) A ts (w0 w : world X) ad en mn ini,
  NoDup (dao_addrs A) -> funds_instantiate ad en mn ini = Ok (w_funds w0) -> w = world_run Out A w0 ts ->
  (forall a, (forall u, claimable (w_funds w) u a = Ok 0) \/
     exists bal, honest_ledger Out (a_funds A) (HAmount a) bal /\ foreign A (HAmount a) ts /\ bal (w_ext w) < 2 ^ 128) ->
  rewards_fit w.
Proof. exact ledger_fits. Qed.
Print Assumptions C81_rewards_fit.

(** ... and it is needed: a whitelisted token that reports amounts nobody sent locks large members in forever. *)
Theorem C81_locked_refuted : exists (A : addrs) (w0 : world book) ts u st e,
  new_dao A w0 /\ funds_instantiate (a_controller A) (a_enterprise A) None [] = Ok (w_funds w0) /\ weights_covered w0 u /\
  let w := world_run chain A w0 ts in
  timely 0 ts /\ lasting w /\ calm A w /\ undisturbed A w /\ free_calls chain /\ fungible (w_member w) st /\
  0 < weight_of (w_member w) u /\ unlockable e (st_period st) (st_next_claim st) /\ last_time ts <= e_time e /\ is_dao A u = false /\ u <> 0 /\
  (forall gas, is_ok (world_tx chain A w (mk_tx gas e u (to_membership A (unstaking (w_member w) 1)))) = false) /\
  (forall gas, is_ok (world_tx chain A w (mk_tx gas e u (to_distributor A (FClaim u [] [95])))) = false).
Proof. exact locked_in. Qed.
Print Assumptions C81_locked_refuted.

(** C82: when the unlocking period is over, claiming succeeds and pays exactly what is due, to the claimant. *)
Theorem C82_claim : forall X (Out : outside X) A bal w0 ts w st u e gas,
  new_dao A w0 -> w = world_run Out A w0 ts -> free_calls Out ->
  fungible (w_member w) st -> let a := HAmount (st_asset st) in
  good_ledger Out A (a_membership A) a bal -> foreign A a ts -> bal (w_ext w) < 2 ^ 128 ->
  0 < due_amount e u st -> is_dao A u = false -> (4 <= gas)%nat ->
  exists w' st', world_tx Out A w (mk_tx gas e u (to_membership A (claiming (w_member w)))) = Ok w' /\ fungible (w_member w') st' /\
    w_log w' = (a_membership A, hand_over a u (due_amount e u st)) :: (u, to_membership A (claiming (w_member w))) :: w_log w /\
    (forall id, oget (st_claims st') id = match oget (st_claims st) id with Some cl => if due e u cl then None else Some cl | None => None end) /\
    (forall v, weight_of (w_member w') v = weight_of (w_member w) v) /\ rest_same w w' /\ w_gov w' = w_gov w /\ w_funds w' = w_funds w.
Proof. exact claim_goes_through. Qed.
Print Assumptions C82_claim.

Example C82_claim_nonvacuous :
  let w := world_run chain dao_at (ledger_dao false) token_story in
  fungible (w_member w) token_end /\ good_ledger chain dao_at (a_membership dao_at) (HAmount (st_asset token_end)) (has 7 (HAmount (Cw20 90))) /\
  foreign dao_at (HAmount (st_asset token_end)) token_story /\ has 7 (HAmount (Cw20 90)) (w_ext w) < 2 ^ 128 /\
  due_amount (clock 2095) 11 token_end = 120 /\
  match world_tx chain dao_at w (mk_tx 4 (clock 2095) 11 (to_membership dao_at (claiming (w_member w)))) with
  | Ok w' => bk_cw20 (w_ext w') 90 11 = bk_cw20 (w_ext w) 90 11 + 120
  | Err _ => False
  end.
Proof. exact claim_case. Qed.

Theorem C82_nft_claim : forall X (Out : outside X) A bal w0 ts w st col u e gas,
  new_dao A w0 -> w = world_run Out A w0 ts -> free_calls Out ->
  w_member w = MNft st -> ns_contract st = NCw721 col ->
  (forall t, In t (due_nfts e u st) -> good_ledger Out A (a_membership A) (HNft col t) (bal t)) -> foreign A (HNft col 0) ts ->
  is_dao A u = false -> (length (due_nfts e u st) + 3 <= gas)%nat ->
  exists w' st', world_tx Out A w (mk_tx gas e u (to_membership A (claiming (w_member w)))) = Ok w' /\ w_member w' = MNft st' /\
    w_log w' = rev (map (fun t => (a_membership A, hand_over (HNft col t) u 1)) (due_nfts e u st)) ++ (u, to_membership A (claiming (w_member w))) :: w_log w /\
    (forall id, oget (ns_claims st') id = match oget (ns_claims st) id with Some cl => if nft_due e u cl then None else Some cl | None => None end) /\
    ns_stakes st' = ns_stakes st /\ (forall v, weight_of (w_member w') v = weight_of (w_member w) v) /\ rest_same w w' /\ w_gov w' = w_gov w /\ w_funds w' = w_funds w.
Proof. exact nft_claim_goes_through. Qed.
Print Assumptions C82_nft_claim.

(** Claiming rewards succeeds for everybody not kept out by the attestation, and pays each reward asked for exactly once. *)
Theorem C82_reward_claim : forall X (Out : outside X) A bal w0 ts w minimum initial u ns cs e gas,
  new_dao A w0 ->
  funds_instantiate (a_controller A) (a_enterprise A) minimum initial = Ok (w_funds w0) -> w = world_run Out A w0 ts -> free_calls Out ->
  let asked := map Native ns ++ map Cw20 cs in
  (forall a, In a asked -> good_ledger Out A (a_funds A) (HAmount a) (bal a) /\ foreign A (HAmount a) ts /\ bal a (w_ext w) < 2 ^ 128) ->
  unrestricted Out w u -> u <> 0 -> ~ In 0 cs -> is_dao A u = false -> (length ns + length cs + 3 <= gas)%nat ->
  exists w' paid, world_tx Out A w (mk_tx gas e u (to_distributor A (FClaim u ns cs))) = Ok w' /\
    w_log w' = map (fun p => (a_funds A, hand_over (HAmount (fst p)) u (snd p))) paid ++ (u, to_distributor A (FClaim u ns cs)) :: w_log w /\
    NoDup (map fst paid) /\ (forall a x, In (a, x) paid <-> In a asked /\ 0 < x /\ claimable (w_funds w) u a = Ok x) /\
    (forall v a, claimable (w_funds w') v a = if (v =? u) && asset_in a asked then Ok 0 else claimable (w_funds w) v a) /\
    rest_same w w' /\ w_gov w' = w_gov w /\ w_member w' = w_member w.
Proof. exact reward_claim_goes_through. Qed.
Print Assumptions C82_reward_claim.

Example C82_reward_nonvacuous :
  let w := world_run chain dao_at (ledger_dao false) token_story in
  (forall a, In a [Native 70; Native 70; Cw20 90] ->
     good_ledger chain dao_at (a_funds dao_at) (HAmount a) (has 6 (HAmount a)) /\ foreign dao_at (HAmount a) token_story /\ has 6 (HAmount a) (w_ext w) < 2 ^ 128) /\
  unrestricted chain w 12 /\
  match world_tx chain dao_at w (mk_tx 6 (clock 2090) 12 (to_distributor dao_at (FClaim 12 [70; 70] [90]))) with
  | Ok w' => firstn 3 (w_log w') = [(6, hand_over (HAmount (Cw20 90)) 12 12); (6, hand_over (HAmount (Native 70)) 12 7);
                                    (12, to_distributor dao_at (FClaim 12 [70; 70] [90]))]
  | Err _ => False
  end.
Proof. exact reward_claim_case. Qed.
