(** Membership properties C19-C26, C57. *)
From Verif Require Import Base OMap Assets MemberModel MemberSpec MemberExamples MemberCases MemberFacts.

(** C19: in every reachable state of every kind of membership contract, the total is the sum of the weights. *)
Theorem C19_total_is_sum : forall st us,
  member_reachable st -> NoDup us -> (forall u, weight_of st u <> 0 -> In u us) ->
  total_now st = lsum (weight_of st) us.
Proof. exact total_is_sum. Qed.
Print Assumptions C19_total_is_sum.

(** ... where a user's weight is what the query answers. *)
Theorem C19_weight_query : forall st u,
  u <> 0 -> query_user_weight (members_of st) u = Ok (weight_of st u).
Proof. exact weight_query. Qed.
Print Assumptions C19_weight_query.

Example C19_nonvacuous :
  member_reachable tok_st /\ member_reachable den_st /\ member_reachable nft_st /\ member_reachable mul_st /\
  map total_now [tok_st; den_st; nft_st; mul_st] = [140; 130; 1; 10] /\
  map (weight_of tok_st) [101; 102; 103] = [70; 50; 20].
Proof. exact case_totals. Qed.

(** C20: the total at a past height is the total after exactly the calls of earlier blocks; before the contract existed it is the last initial checkpoint. *)
Theorem C20_total_at_height : forall e i st0 cs h,
  member_instantiate e i = Ok st0 -> ordered_upto (e_height e) (checkpoints_by_height i) ->
  rising call_height (e_height e) cs ->
  query_total_weight (members_of (member_run st0 cs)) (AtHeight h) =
  if e_height e <? h then total_now (member_run st0 (filter (fun c => call_height c <? h) cs))
  else last_before h (checkpoints_by_height i).
Proof. exact total_at_height. Qed.
Print Assumptions C20_total_at_height.

(** ... and the same for times, counted in whole seconds. *)
Theorem C20_total_at_time : forall e i st0 cs t,
  member_instantiate e i = Ok st0 -> ordered_upto (ts_seconds (e_time e)) (checkpoints_by_seconds i) ->
  rising call_second (ts_seconds (e_time e)) cs ->
  query_total_weight (members_of (member_run st0 cs)) (AtTime t) =
  if ts_seconds (e_time e) <? ts_seconds t
  then total_now (member_run st0 (filter (fun c => call_second c <? ts_seconds t) cs))
  else last_before (ts_seconds t) (checkpoints_by_seconds i).
Proof. exact total_at_time. Qed.
Print Assumptions C20_total_at_time.

Example C20_nonvacuous :
  member_instantiate (at_block 10) tok_init = Ok tok0 /\
  ordered_upto (e_height (at_block 10)) (checkpoints_by_height tok_init) /\
  ordered_upto (ts_seconds (e_time (at_block 10))) (checkpoints_by_seconds tok_init) /\
  rising call_height (e_height (at_block 10)) tok_calls /\
  rising call_second (ts_seconds (e_time (at_block 10))) tok_calls /\
  map (fun h => query_total_weight (members_of tok_st) (AtHeight h)) [5; 8; 9; 10; 11; 12; 13; 14; 15] = [0; 70; 90; 90; 0; 100; 180; 180; 140].
Proof. exact case_history. Qed.

(** C21: everything ever staked is paid out, staked, or in a claim. *)
Theorem C21_custody : forall e i st0 cs s,
  member_instantiate e i = Ok st0 -> let cu := custody_run st0 cs in
  fungible (cu_state cu) s -> cu_in cu = cu_out cu + all_stakes s + all_claims s.
Proof. exact custody_balance. Qed.
Print Assumptions C21_custody.

Example C21_nonvacuous : exists s d,
  fungible (cu_state (custody_run tok0 tok_calls)) s /\ fungible (cu_state (custody_run den0 den_calls)) d /\
  cu_in (custody_run tok0 tok_calls) = 187 /\ cu_out (custody_run tok0 tok_calls) = 7 /\ all_stakes s = 140 /\ all_claims s = 40 /\
  cu_in (custody_run den0 den_calls) = 160 /\ all_stakes d = 130 /\ all_claims d = 30.
Proof. exact case_custody. Qed.

(** C22: a claim pays the sender the sum of their due claims, removes exactly those, and changes nothing else. *)
Theorem C22_claim_pays_due : forall st c st' outs s user,
  member_reachable st -> accepts st c st' outs -> fungible st s -> stake_call c (SClaim user) ->
  let u := mc_sender c in
  (user = None \/ user = Some u) /\
  outs = [OPay (st_asset s) u (due_amount (mc_env c) u s)] /\
  exists s', fungible st' s' /\
    (forall id, oget (st_claims s') id =
       match oget (st_claims s) id with Some cl => if due (mc_env c) u cl then None else Some cl | None => None end) /\
    st_members s' = st_members s /\ st_asset s' = st_asset s /\ st_period s' = st_period s /\ st_next_claim s' = st_next_claim s.
Proof. exact claim_pays. Qed.
Print Assumptions C22_claim_pays_due.

(** ... and it goes through while the amount ever staked fits a [Uint128]. *)
Theorem C22_claim_succeeds : forall e i st0 cs s c,
  member_instantiate e i = Ok st0 -> let cu := custody_run st0 cs in
  cu_in cu < 2 ^ 128 -> fungible (cu_state cu) s -> 
  (mc_msg c = match cu_state cu with MToken _ => TokenMsg (TCommon (SClaim None)) | _ => DenomMsg (DCommon (SClaim None)) end) ->
  exists st' outs, accepts (cu_state cu) c st' outs.
Proof. exact claim_succeeds. Qed.
Print Assumptions C22_claim_succeeds.

(** ... and likewise for NFTs. *)
Theorem C22_nft_claim_returns_due : forall st c st' outs s user,
  member_reachable st -> accepts st c st' outs -> st = MNft s -> mc_msg c = NftMsg (NClaim user) ->
  let u := mc_sender c in
  (user = None \/ user = Some u) /\
  exists col s', ns_contract s = NCw721 col /\ st' = MNft s' /\
    outs = map (OSendNft col u) (flat_map nc_tokens (filter (nft_due (mc_env c) u) (ovals (ns_claims s)))) /\
    (forall id, oget (ns_claims s') id =
       match oget (ns_claims s) id with Some cl => if nft_due (mc_env c) u cl then None else Some cl | None => None end) /\
    ns_members s' = ns_members s /\ ns_contract s' = ns_contract s /\ ns_period s' = ns_period s /\
    ns_stakes s' = ns_stakes s /\ ns_next_claim s' = ns_next_claim s.
Proof. exact nft_claim_pays. Qed.
Print Assumptions C22_nft_claim_returns_due.

Example C22_nonvacuous : exists st' s,
  member_reachable tok_st /\ fungible tok_st s /\ stake_call tok_claim (SClaim (Some 101)) /\
  accepts tok_st tok_claim st' [OPay (Cw20 50) 101 40].
Proof. exact case_claim. Qed.

Example C22_nft_nonvacuous : exists st',
  member_reachable nft_st /\ accepts nft_st nft_claim_call st' [OSendNft 60 102 3].
Proof. exact case_nft_claim. Qed.

(** C23: unstaking moves exactly the amount from the sender's weight to a new claim, due one unlocking period later, computed in 64 bits, *)
Theorem C23_unstake_exact : forall st c st' outs s a,
  accepts st c st' outs -> fungible st s -> stake_call c (SUnstake a) ->
  let u := mc_sender c in
  a <= weight_of st u /\
  let r := release_computed (mc_env c) (st_period s) in
  release_exists (mc_env c) (st_period s) /\
  (release_fits (mc_env c) (st_period s) -> r = release_after (mc_env c) (st_period s)) /\
  exists s', fungible st' s' /\
    (forall v, weight_of st' v = if v =? u then weight_of st u - a else weight_of st v) /\
    total_now st' = total_now st - a /\
    st_claims s' = oset (st_claims s) (st_next_claim s) (mk_claim (st_next_claim s) u a r) /\
    st_next_claim s' = st_next_claim s + 1 /\
    st_asset s' = st_asset s /\ st_period s' = st_period s /\ m_hooks (st_members s') = m_hooks (st_members s) /\
    paid_out outs = 0.
Proof. exact unstake_exact. Qed.
Print Assumptions C23_unstake_exact.

(** ... it succeeds exactly if the amount is staked (and there is a claim id left and a point in time),  *)
Theorem C23_unstake_succeeds : forall st c s a,
  member_reachable st -> fungible st s ->
  mc_msg c = (match st with MToken _ => TokenMsg (TCommon (SUnstake a)) | _ => DenomMsg (DCommon (SUnstake a)) end) ->
  (exists st' outs, accepts st c st' outs) <->
  a <= weight_of st (mc_sender c) /\ st_next_claim s + 1 < 2 ^ 64 /\ release_exists (mc_env c) (st_period s).
Proof. exact unstake_succeeds. Qed.
Print Assumptions C23_unstake_succeeds.

(** ... and NFTs likewise. *)
Theorem C23_unstake_nfts : forall st c st' outs s ts,
  accepts st c st' outs -> st = MNft s -> mc_msg c = NftMsg (NUnstake ts) ->
  let u := mc_sender c in
  NoDup ts /\ (forall t, In t ts -> oget (ns_stakes s) t = Some u) /\
  let r := release_computed (mc_env c) (ns_period s) in
  release_exists (mc_env c) (ns_period s) /\
  (release_fits (mc_env c) (ns_period s) -> r = release_after (mc_env c) (ns_period s)) /\
  exists s', st' = MNft s' /\
    (forall t, oget (ns_stakes s') t = if existsb (N.eqb t) ts then None else oget (ns_stakes s) t) /\
    (forall v, weight_of st' v = if v =? u then weight_of st u - N.of_nat (length ts) else weight_of st v) /\
    total_now st' = total_now st - N.of_nat (length ts) /\
    ns_claims s' = oset (ns_claims s) (ns_next_claim s) (mk_nft_claim (ns_next_claim s) u ts r) /\
    ns_next_claim s' = ns_next_claim s + 1 /\
    ns_contract s' = ns_contract s /\ ns_period s' = ns_period s /\ m_hooks (ns_members s') = m_hooks (ns_members s).
Proof. exact unstake_nfts. Qed.
Print Assumptions C23_unstake_nfts.

(** The wrap-around is real: with a period of 18446744074 seconds the stake is free after one block. *)
Theorem C23_release_wraps_refuted : exists st s c st1 outs1 c2 st2 seconds,
  member_reachable st /\ fungible st s /\ st_period s = DTime seconds /\
  stake_call c (SUnstake 100) /\ accepts st c st1 outs1 /\
  stake_call c2 (SClaim None) /\ accepts st1 c2 st2 [OPay (st_asset s) (mc_sender c) 100] /\
  e_time (mc_env c2) < e_time (mc_env c) + seconds * NANOS /\
  e_time (mc_env c2) = e_time (mc_env c) + 6 * NANOS.
Proof. exact release_wraps. Qed.
Print Assumptions C23_release_wraps_refuted.

Example C23_nonvacuous : exists st' outs s,
  member_reachable tok_st /\ fungible tok_st s /\ stake_call tok_unstake (SUnstake 50) /\
  release_fits (mc_env tok_unstake) (st_period s) /\ accepts tok_st tok_unstake st' outs.
Proof. exact case_unstake. Qed.

Example C23_nft_nonvacuous : exists st' outs,
  member_reachable nft_st /\ accepts nft_st (call 30 102 [] (NftMsg (NUnstake [2]))) st' outs.
Proof. exact case_unstake_nfts. Qed.

(** C24: an NFT the contract holds for [u] (by an outside ledger) is in exactly one place - staked by [u] or in one claim of [u] - and others are nowhere. *)
Theorem C24_nft_one_place : forall e i st0 cs s t u,
  member_instantiate e i = Ok st0 -> honest (mk_ledger st0 oempty) cs ->
  let l := ledger_run st0 cs in le_state l = MNft s ->
  times_staked s t u + times_claimed s t u = match oget (le_held l) t with Some v => if v =? u then 1 else 0 | None => 0 end.
Proof. exact nft_one_place. Qed.
Print Assumptions C24_nft_one_place.

(** ... and NFTs only leave, once, to the user they are held for, who asked for it. *)
Theorem C24_nft_leaves_to_owner : forall e i st0 cs c st' outs col u t,
  member_instantiate e i = Ok st0 -> honest (mk_ledger st0 oempty) (cs ++ [c]) ->
  let l := ledger_run st0 cs in
  accepts (le_state l) c st' outs -> In (OSendNft col u t) outs ->
  oget (le_held l) t = Some u /\ u = mc_sender c /\
  count t (flat_map (fun o => match o with OSendNft _ _ t => [t] | _ => [] end) outs) = 1 /\
  exists s, le_state l = MNft s /\ ns_contract s = NCw721 col.
Proof. exact nft_leaves_to_owner. Qed.
Print Assumptions C24_nft_leaves_to_owner.

Example C24_nonvacuous :
  member_instantiate (at_block 10) nft_init = Ok nft0 /\
  honest (mk_ledger nft0 oempty) (nft_calls ++ [nft_claim_call]) /\
  le_state (ledger_run nft0 nft_calls) = nft_st /\
  elems (le_held (ledger_run nft0 nft_calls)) = [(2, 102); (3, 102); (4, 103)].
Proof. exact case_nft_ledger. Qed.

(** C57: a user's voting weight is the number of NFTs they have staked. *)
Theorem C57_nft_weight_is_count : forall st s u,
  member_reachable st -> st = MNft s -> weight_of st u = nfts_staked s u.
Proof. exact nft_weight_is_count. Qed.
Print Assumptions C57_nft_weight_is_count.

Example C57_nonvacuous : member_reachable nft_st /\ weight_of nft_st 102 = 1.
Proof. exact case_nft_count. Qed.

(** C25: every registered hook, and nobody else, is told a chain of changes leading from each user's old weight to their new one, except for users left out of a replaced list of members: they drop to zero and are not mentioned, *)
Theorem C25_reports_exact : forall st c st' outs h u,
  member_reachable st -> accepts st c st' outs ->
  (ohas (m_hooks (members_of st)) h = false -> told h outs = []) /\
  (ohas (m_hooks (members_of st)) h = true ->
     (~ left_out c u -> replay u (weight_of st u) (told h outs) = Some (weight_of st' u)) /\
     (left_out c u -> weight_of st' u = 0 /\ replay u (weight_of st u) (told h outs) = Some (weight_of st u) /\
        forall ch, In ch (told h outs) -> wc_user ch <> u)).
Proof. exact reports_exact. Qed.
Print Assumptions C25_reports_exact.

(** ... so that C25 without the exception is false. *)
Theorem C25_removed_members_refuted : exists st c st' outs h u,
  member_reachable st /\ accepts st c st' outs /\ ohas (m_hooks (members_of st)) h = true /\
  weight_of st u = 6 /\ weight_of st' u = 0 /\ replay u (weight_of st u) (told h outs) = Some 6.
Proof. exact removed_member_unreported. Qed.
Print Assumptions C25_removed_members_refuted.

Example C25_nonvacuous : exists st' outs st2 outs2,
  member_reachable mul_st /\ accepts mul_st mul_update st' outs /\
  told 4 outs = [mk_change 101 4 0; mk_change 105 0 9] /\
  member_reachable tok_st /\
  accepts tok_st (call 20 50 [] (TokenMsg (TReceive 9 (HAddStakes [(101, 4); (101, 5)])))) st2 outs2 /\
  told 3 outs2 = [mk_change 101 70 74; mk_change 101 74 79].
Proof. exact case_report. Qed.

Example C25_set_members_nonvacuous : exists st' outs,
  member_reachable mul_st /\ accepts mul_st mul_set st' outs /\ ohas (m_hooks (members_of mul_st)) 3 = true /\
  left_out mul_set 104 /\ weight_of mul_st 104 = 6 /\ ~ left_out mul_set 101 /\ told 3 outs = [mk_change 101 4 4].
Proof. exact case_set_members. Qed.

(** C26: only the governance controller changes unlocking period, hooks, or a multisig's members. *)
Theorem C26_settings_by_controller : forall st c st' outs,
  accepts st c st' outs ->
  m_enterprise (members_of st') = m_enterprise (members_of st) /\
  (period_of st' = period_of st /\ m_hooks (members_of st') = m_hooks (members_of st) /\
   (forall m, st = MMultisig m -> m_weights (members_of st') = m_weights m /\ total_now st' = total_now st)
   \/ mo_controller (mc_oracle c) = Ok (mc_sender c)).
Proof. exact settings_by_controller. Qed.
Print Assumptions C26_settings_by_controller.

(** ... a stake only grows by an unrestricted deposit of the right asset and only shrinks by its owner. *)
Theorem C26_stake_changes : forall st c st' outs s v,
  member_reachable st -> accepts st c st' outs -> fungible st s ->
  exists s', fungible st' s' /\ st_asset s' = st_asset s /\
  (weight_of st' v = weight_of st v \/
   (exists amount h, mc_msg c = TokenMsg (TReceive amount h) /\ st_asset s = Cw20 (mc_sender c) /\
      mo_restricted (mc_oracle c) v = Ok false /\
      weight_of st' v = weight_of st v +
        match h with
        | HStake u => if u =? v then amount else 0
        | HAddStakes l => lsum (fun p => if fst p =? v then snd p else 0) l
        | _ => 0
        end) \/
   (exists d amount user, mc_msg c = DenomMsg (DStake user) /\ mc_coins c = [(d, amount)] /\ st_asset s = Native d /\
      v = dflt (mc_sender c) user /\ mo_restricted (mc_oracle c) v = Ok false /\
      weight_of st' v = weight_of st v + amount) \/
   (exists amount, stake_call c (SUnstake amount) /\ v = mc_sender c /\ amount <= weight_of st v /\
      weight_of st' v = weight_of st v - amount)).
Proof. exact stake_changes_reachable. Qed.
Print Assumptions C26_stake_changes.

(** ... a claim only disappears when its owner collects it due, and only appears by unstaking or a token deposit. *)
Theorem C26_claim_changes : forall st c st' outs s s' id,
  member_reachable st -> accepts st c st' outs -> fungible st s -> fungible st' s' ->
  oget (st_claims s') id = oget (st_claims s) id \/
  (exists cl, oget (st_claims s) id = Some cl /\ oget (st_claims s') id = None /\
     cl_user cl = mc_sender c /\ reached (mc_env c) (cl_release cl) = true) \/
  (exists cl, oget (st_claims s) id = None /\ oget (st_claims s') id = Some cl /\
     ((exists a, stake_call c (SUnstake a) /\ cl_user cl = mc_sender c /\ cl_amount cl = a) \/
      (exists a l, mc_msg c = TokenMsg (TReceive a (HAddClaims l)) /\ st_asset s = Cw20 (mc_sender c) /\
         In (cl_user cl, cl_amount cl, cl_release cl) l))).
Proof. exact claim_changes. Qed.
Print Assumptions C26_claim_changes.

Theorem C26_nft_stake_changes : forall st c st' outs s s' t,
  member_reachable st -> accepts st c st' outs -> st = MNft s -> st' = MNft s' ->
  oget (ns_stakes s') t = oget (ns_stakes s) t \/
  (exists u, oget (ns_stakes s) t = None /\ oget (ns_stakes s') t = Some u /\
     mc_msg c = NftMsg (NReceive t (NStake u)) /\ collection_of s (mc_oracle c) = Some (mc_sender c) /\
     mo_restricted (mc_oracle c) u = Ok false) \/
  (exists ts, oget (ns_stakes s) t = Some (mc_sender c) /\ oget (ns_stakes s') t = None /\
     mc_msg c = NftMsg (NUnstake ts) /\ In t ts).
Proof. exact nft_stake_changes. Qed.
Print Assumptions C26_nft_stake_changes.

Example C26_nonvacuous : exists st' outs,
  accepts tok_st (call 20 3 [] (TokenMsg (TCommon (SUpdatePeriod (Some (DTime 5)))))) st' outs /\
  period_of tok_st = Some (DTime 86400) /\ period_of st' = Some (DTime 5).
Proof. exact case_settings. Qed.

Example C26_stake_nonvacuous : exists st' outs s,
  member_reachable den_st /\ fungible den_st s /\
  accepts den_st (call 20 101 [(7, 5)] (DenomMsg (DStake None))) st' outs /\ weight_of st' 101 = weight_of den_st 101 + 5.
Proof. exact case_stake. Qed.

Example C26_nft_nonvacuous : exists st' outs,
  member_reachable nft_st /\ accepts nft_st (call 30 60 [] (NftMsg (NReceive 8 (NStake 101)))) st' outs /\
  weight_of st' 101 = 1.
Proof. exact case_nft_stake. Qed.
