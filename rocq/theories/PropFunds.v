(** Reward properties C11-C18, C53, C54. *)
From Verif Require Import Base OMap Assets FundsModel FundsSpec FundsExamples FundsFacts.

(** C11: paid out + still claimable <= distributed, for every asset and any set of users. *)
Theorem C11_never_over_promised : forall b a us xs,
  reachable b -> NoDup us ->
  map_res (fun u => claimable (b_funds b) u a) us = Ok xs ->
  total_of a (paid_amounts (b_paid b)) + lsum (fun x => x) xs <= total_of a (b_distributed b).
Proof. exact solvency. Qed.
Print Assumptions C11_never_over_promised.

(** ... and what a user can claim is always readable while the amounts distributed fit a [Uint128]. *)
Theorem C11_rewards_readable : forall b a u,
  reachable b -> total_of a (b_distributed b) < 2 ^ 128 ->
  exists x, claimable (b_funds b) u a = Ok x.
Proof. exact readable. Qed.
Print Assumptions C11_rewards_readable.

Example C11_nonvacuous :
  reachable ex_books /\
  map_res (fun u => claimable (b_funds ex_books) u (Native 7)) [101; 102; 103; 104] = Ok [267; 776; 0; 34] /\
  total_of (Native 7) (b_distributed ex_books) = 1078.
Proof. exact (conj ex_reachable ex_claimables). Qed.

(** C12: a distribution of A of an asset, total effective weight T, raises the claimable reward of a user
    of effective weight w by at most A*w/T + 1 and by more than A*w/T - w/10^18 - 1. *)
Theorem C12_proportional : forall b o sender coins m f' ps a A u x0 x1,
  reachable b -> let f := b_funds b in
  funds_execute o f sender coins m = Ok (f', ps) ->
  let given := handed_over f (mk_fcall o sender coins m) in
  NoDup (map fst given) -> In (a, A) given ->
  claimable f u a = Ok x0 -> claimable f' u a = Ok x1 ->
  let w := ogetN (f_eff f) u in let T := f_total f in
  x0 <= x1 /\ (x1 - x0) * T <= A * w + T /\ A * w * DEC < (x1 - x0) * T * DEC + w * T + T * DEC.
Proof. exact share. Qed.
Print Assumptions C12_proportional.

Theorem C12_other_assets_unchanged : forall b o sender coins m f' ps a u,
  reachable b -> let f := b_funds b in
  (m = FDistributeNative \/ exists x k, m = FReceive x k) ->
  funds_execute o f sender coins m = Ok (f', ps) ->
  ~ In a (map fst (handed_over f (mk_fcall o sender coins m))) ->
  claimable f' u a = claimable f u a /\ ps = [].
Proof. exact share_others. Qed.
Print Assumptions C12_other_assets_unchanged.

Example C12_nonvacuous : exists f',
  funds_execute ex_oracle (b_funds ex_books) 8 [(6, 5); (7, 1000)] FDistributeNative = Ok (f', []) /\
  In (Native 7, 1000) (handed_over (b_funds ex_books) (mk_fcall ex_oracle 8 [(6, 5); (7, 1000)] FDistributeNative)) /\
  claimable (b_funds ex_books) 102 (Native 7) = Ok 776 /\ claimable f' 102 (Native 7) = Ok 1098.
Proof. exact ex_distribution. Qed.

(** C13: a weight update changes nobody's claimable reward. *)
Theorem C13_weight_change_keeps_rewards : forall b o sender coins ch f' ps,
  reachable b ->
  funds_execute o (b_funds b) sender coins (FUpdateUserWeights ch) = Ok (f', ps) ->
  ps = [] /\ forall u a, claimable f' u a = claimable (b_funds b) u a.
Proof. exact weights_keep_rewards. Qed.
Print Assumptions C13_weight_change_keeps_rewards.

Theorem C13_newcomer_starts_at_zero : forall b u a,
  reachable b -> oget (f_weights (b_funds b)) u = None -> claimable (b_funds b) u a = Ok 0.
Proof. exact newcomer. Qed.
Print Assumptions C13_newcomer_starts_at_zero.

Example C13_nonvacuous : exists f',
  funds_execute ex_oracle (b_funds ex_books) 1 [] (FUpdateUserWeights [(102, 0); (105, 9)]) = Ok (f', []) /\
  claimable f' 102 (Native 7) = Ok 776 /\ claimable f' 105 (Native 7) = Ok 0.
Proof. exact ex_update. Qed.

(** C14: a claim pays what the query reports, asset by asset, leaving out zeros; afterwards the claimed
    assets show zero for the user and nothing else has changed. *)
Theorem C14_claim_pays_the_query : forall b o sender coins user ns cs f' ps,
  reachable b -> let f := b_funds b in
  funds_execute o f sender coins (FClaim user ns cs) = Ok (f', ps) ->
  (exists n c, query_user_rewards f user ns cs = Ok (n, c) /\
     ps = pay_all Native user n ++ pay_all Cw20 user c) /\
  (forall u a, claimable f' u a =
     if (u =? user) && asset_in a (map Native ns ++ map Cw20 cs) then Ok 0 else claimable f u a).
Proof. exact claim_pays_query. Qed.
Print Assumptions C14_claim_pays_the_query.

Theorem C14_second_claim_pays_nothing : forall b o o' sender coins user ns cs f' ps sender' coins' ns' cs' f'' ps',
  reachable b ->
  funds_execute o (b_funds b) sender coins (FClaim user ns cs) = Ok (f', ps) ->
  incl ns' ns -> incl cs' cs ->
  funds_execute o' f' sender' coins' (FClaim user ns' cs') = Ok (f'', ps') -> ps' = [].
Proof. exact claim_again_pays_nothing. Qed.
Print Assumptions C14_second_claim_pays_nothing.

(** ... and an unrestricted user's own claim always goes through. *)
Theorem C14_claim_succeeds : forall b o user coins ns cs,
  reachable b -> (forall a, total_of a (b_distributed b) < 2 ^ 128) ->
  fo_restricted o user = false -> user <> 0 -> ~ In 0 cs ->
  exists f' ps, funds_execute o (b_funds b) user coins (FClaim user ns cs) = Ok (f', ps).
Proof. exact claim_succeeds. Qed.
Print Assumptions C14_claim_succeeds.

Example C14_nonvacuous : exists f',
  funds_execute ex_oracle (b_funds ex_books) 101 [] (FClaim 101 [7; 9; 7; 8] [50]) =
    Ok (f', [mk_payment (Native 7) 101 267; mk_payment (Native 9) 101 2; mk_payment (Cw20 50) 101 111]).
Proof. exact ex_claim. Qed.

(** C15: only the unrestricted user themself claims, and every payment is such a claim's. *)
Theorem C15_claim_needs_the_user : forall o f sender coins user ns cs f' ps,
  funds_execute o f sender coins (FClaim user ns cs) = Ok (f', ps) ->
  sender = user /\ fo_restricted o user = false.
Proof. exact claim_auth. Qed.
Print Assumptions C15_claim_needs_the_user.

Theorem C15_payments_only_to_claimants : forall o f sender coins m f' ps p,
  funds_execute o f sender coins m = Ok (f', ps) -> In p ps ->
  pay_to p = sender /\ fo_restricted o sender = false /\ exists ns cs, m = FClaim sender ns cs.
Proof. exact payments_are_claims. Qed.
Print Assumptions C15_payments_only_to_claimants.

Example C15_nonvacuous :
  funds_execute ex_oracle (b_funds ex_books) 102 [] (FClaim 101 [7] []) = Err EUnauthorized /\
  funds_execute ex_oracle (b_funds ex_books) 66 [] (FClaim 66 [7] []) = Err ERestricted.
Proof. exact ex_claim_denied. Qed.

(** C16: effective weight is the weight if at least the minimum, else zero; the total is their sum. *)
Theorem C16_effective_weight : forall b u, reachable b -> let f := b_funds b in
  oget (f_eff f) u = match oget (f_weights f) u with
                     | Some w => Some (if f_min f <=? w then w else 0)
                     | None => None
                     end.
Proof. exact eligibility_exact. Qed.
Print Assumptions C16_effective_weight.

Theorem C16_total : forall b, reachable b -> let f := b_funds b in
  f_total f = lsum (fun uw => if f_min f <=? snd uw then snd uw else 0) (elems (f_weights f)).
Proof. exact total_exact. Qed.
Print Assumptions C16_total.

Theorem C16_minimum_change_keeps_rewards : forall b o sender coins mn f' ps,
  reachable b ->
  funds_execute o (b_funds b) sender coins (FUpdateMinimum mn) = Ok (f', ps) ->
  ps = [] /\ f_min f' = mn /\ f_weights f' = f_weights (b_funds b) /\
  forall u a, claimable f' u a = claimable (b_funds b) u a.
Proof. exact minimum_keeps_rewards. Qed.
Print Assumptions C16_minimum_change_keeps_rewards.

Example C16_nonvacuous : exists f',
  funds_execute ex_oracle (b_funds ex_books) 1 [] (FUpdateMinimum 25) = Ok (f', []) /\
  oget (f_eff (b_funds ex_books)) 101 = Some 20 /\ oget (f_eff f') 101 = Some 0 /\ claimable f' 101 (Native 7) = Ok 267.
Proof. exact ex_minimum. Qed.

(** C17: weights and minimum change only by the admin's messages, exactly as these say. *)
Theorem C17_admin_controls_weights : forall b o sender coins m f' ps,
  reachable b -> let f := b_funds b in
  funds_execute o f sender coins m = Ok (f', ps) ->
  f_admin f' = f_admin f /\
  match m with
  | FUpdateUserWeights ch =>
      sender = f_admin f /\ f_min f' = f_min f /\
      forall u, oget (f_weights f') u = last_weight ch u (oget (f_weights f) u)
  | FUpdateMinimum mn => sender = f_admin f /\ f_min f' = mn /\ f_weights f' = f_weights f
  | _ => f_min f' = f_min f /\ f_weights f' = f_weights f /\ f_eff f' = f_eff f
  end.
Proof. exact weights_admin_only. Qed.
Print Assumptions C17_admin_controls_weights.

Theorem C17_initial_weights_unique : forall admin ent mn l f,
  funds_instantiate admin ent mn l = Ok f ->
  NoDup (map fst l) /\ f_admin f = admin /\ f_enterprise f = ent /\
  forall u, oget (f_weights f) u = last_weight l u None.
Proof. exact initial_weights_unique. Qed.
Print Assumptions C17_initial_weights_unique.

Example C17_nonvacuous : funds_instantiate 1 2 None [(101, 1); (102, 2); (101, 3)] = Err EDuplicateWeight.
Proof. exact ex_duplicate. Qed.

(** C18: with the whitelist [W] read in pages of [k], only assets of [W] or of the global list are
    distributed, and a distribution is refused for whitelisting exactly if one of its assets is in neither. *)
Theorem C18_only_whitelisted : forall o f sender coins m f' ps W k,
  (0 < k)%nat -> pager W k (wl_page (fo_wl o)) ->
  funds_execute o f sender coins m = Ok (f', ps) ->
  forall a A, In (a, A) (handed_over f (mk_fcall o sender coins m)) -> In a W \/ In a (wl_global (fo_wl o)).
Proof. exact only_whitelisted. Qed.
Print Assumptions C18_only_whitelisted.

Theorem C18_refused_iff_not_whitelisted : forall o f sender coins m W k,
  (0 < k)%nat -> pager W k (wl_page (fo_wl o)) -> (length W <= wl_fuel (fo_wl o))%nat ->
  (m = FDistributeNative \/ exists x, m = FReceive x true) ->
  let assets := match m with FDistributeNative => map (fun c => Native (fst c)) coins | _ => [Cw20 sender] end in
  funds_execute o f sender coins m = Err EAssetNotWhitelisted <->
  ~ (forall a, In a assets -> In a W \/ In a (wl_global (fo_wl o))).
Proof. exact whitelisted_accepted. Qed.
Print Assumptions C18_refused_iff_not_whitelisted.

Example C18_nonvacuous :
  (pager ex_list 2 (wl_page (fo_wl ex_oracle)) /\ (length ex_list <= wl_fuel (fo_wl ex_oracle))%nat) /\
  funds_execute ex_oracle (b_funds ex_books) 8 [(7, 5); (8, 1)] FDistributeNative = Err EAssetNotWhitelisted.
Proof. exact (conj ex_pager ex_not_whitelisted). Qed.

(** C53: reward bookkeeping never blocks the admin's weight updates: with valid addresses they fail only if
    the total effective weight would not fit a [Uint128] at some point of the update. *)
Theorem C53_weight_updates_never_blocked : forall b o coins ch,
  reachable b -> let f := b_funds b in
  (forall a, total_of a (b_distributed b) < 2 ^ 128) ->
  ~ In 0 (map fst ch) ->
  (forall k, lsum snd (elems (eff_after f (firstn k ch))) < 2 ^ 128) ->
  exists f', funds_execute o f (f_admin f) coins (FUpdateUserWeights ch) = Ok (f', []).
Proof. exact weight_updates_never_blocked. Qed.
Print Assumptions C53_weight_updates_never_blocked.

Example C53_nonvacuous : forall k,
  lsum snd (elems (eff_after (b_funds ex_books) (firstn k [(102, 0); (105, 9)]))) < 2 ^ 128.
Proof. exact ex_eff_after. Qed.

(** C54: "any amount can be distributed while the total weight is non-zero" is false: the per-weight index is
    a 128-bit decimal with 18 digits. One unit of weight and 10^21 units of a token (a thousand tokens of 18
    decimals) panic. *)
Theorem C54_any_amount_distributable_refuted : exists f,
  funds_instantiate 1 2 None [(101, 1)] = Ok f /\ f_total f <> 0 /\
  funds_execute ex_oracle f 8 [(7, 10 ^ 21)] FDistributeNative = Err EPanic.
Proof. exact large_distribution_fails. Qed.
Print Assumptions C54_any_amount_distributable_refuted.

(** The exact limit: the accumulated index stays below 2^128 units of 10^-18. *)
Theorem C54_distribution_limit : forall o f sender coins d A,
  assert_assets_whitelisted (wl_fuel (fo_wl o)) (wl_page (fo_wl o)) (wl_global (fo_wl o)) [Native d] = Ok tt ->
  f_total f <> 0 -> coins = [(d, A)] ->
  (exists f', funds_execute o f sender coins FDistributeNative = Ok (f', [])) <->
  ogetN (r_global (f_native f)) d + A * DEC / f_total f < 2 ^ 128.
Proof. exact distribution_limit. Qed.
Print Assumptions C54_distribution_limit.
