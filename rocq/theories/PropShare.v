(** C93: rewards are shared among the members by their votes. *)
From Verif Require Import Base OMap OMapLemmas Assets PollModel PollSpec FundsModel FundsSpec MemberModel MemberSpec Msgs ControllerModel ControllerSpec
  TreasuryModel TreasurySpec EnterpriseModel OutpostsModel WorldModel WorldSpec WorldExamples LedgerExamples RewardSpec ExitSpec ShareSpec ShareFacts ShareCases.

(** Whoever gets rewards shared raises each member's reward in proportion to the votes they have then, and changes nothing else. *)
Theorem C93_shared_by_votes : forall X (Out : outside X) A w0 ts w minimum initial gas e s m coins given w',
  new_dao A w0 ->
  funds_instantiate (a_controller A) (a_enterprise A) minimum initial = Ok (w_funds w0) ->
  (forall u, reward_weight w0 u = weight_of (w_member w0) u) ->
  w = world_run Out A w0 ts -> lasting w -> undisturbed A w ->
  distribution s m coins given -> is_dao A s = false ->
  world_tx Out A w (mk_tx gas e s (WasmExecute (a_funds A) (ToFunds m) coins)) = Ok w' ->
  (forall u a n x x', NoDup (map fst given) -> In (a, n) given -> claimable (w_funds w) u a = Ok x -> claimable (w_funds w') u a = Ok x' ->
     let v := own_votes w u in let all := sharing_votes w in
     x <= x' /\ (x' - x) * all <= n * v + all /\ n * v * DEC < (x' - x) * all * DEC + v * all + all * DEC) /\
  (forall u a, ~ In a (map fst given) -> claimable (w_funds w') u a = claimable (w_funds w) u a) /\
  w_log w' = (s, WasmExecute (a_funds A) (ToFunds m) coins) :: w_log w /\
  rest_same w w' /\ w_gov w' = w_gov w /\ w_member w' = w_member w.
Proof. exact shared_by_votes. Qed.
Print Assumptions C93_shared_by_votes.

Example C93_shared_nonvacuous :
  let w := world_run chain dao_at (ledger_dao false) token_story in
  new_dao dao_at (ledger_dao false) /\ funds_instantiate 3 1 None [] = Ok (w_funds (ledger_dao false)) /\
  (forall u, reward_weight (ledger_dao false) u = weight_of (w_member (ledger_dao false)) u) /\ lasting w /\ undisturbed dao_at w /\
  distribution 11 FDistributeNative [(70, 540)] [(Native 70, 540)] /\
  own_votes w 11 = 180 /\ own_votes w 12 = 90 /\ sharing_votes w = 270 /\
  map (fun u => claimable (w_funds w) u (Native 70)) [11; 12] = [Ok 0; Ok 7] /\
  match world_tx chain dao_at w (to_funds 2090 11 [(70, 540)] FDistributeNative) with
  | Ok w' => map (fun u => claimable (w_funds w') u (Native 70)) [11; 12] = [Ok 360; Ok 187]
  | Err _ => False
  end.
Proof. exact share_case. Qed.

(** This is accepted exactly if the assets are on the list of the treasury or of the factory, somebody reaches the minimum and the amounts are not too large. *)
Theorem C93_sharing_exact : forall X (Out : outside X) A w0 ts w minimum initial assets nfts W gas e s m coins given,
  new_dao A w0 ->
  funds_instantiate (a_controller A) (a_enterprise A) minimum initial = Ok (w_funds w0) ->
  treasury_instantiate (a_controller A) assets nfts = Ok (w_treasury w0) ->
  (forall u, reward_weight w0 u = weight_of (w_member w0) u) ->
  w = world_run Out A w0 ts -> lasting w -> undisturbed A w ->
  distribution s m coins given -> NoDup (map fst given) -> is_dao A s = false ->
  NoDup W -> (forall a, In a W <-> listed (w_treasury w) a) -> (length W + 2 <= gas)%nat ->
  (exists w', world_tx Out A w (mk_tx gas e s (WasmExecute (a_funds A) (ToFunds m) coins)) = Ok w') <->
  exists x, x_pay Out (w_ext w) s (a_funds A) coins = Ok x /\ sharing_votes w <> 0 /\
    forall a n, In (a, n) given ->
      (listed (w_treasury w) a \/ In a (x_global Out x (en_factory (w_enterprise w)))) /\ per_vote w a + n * DEC / sharing_votes w < 2 ^ 128.
Proof. exact sharing_exact. Qed.
Print Assumptions C93_sharing_exact.

Example C93_sharing_nonvacuous :
  let w := world_run chain dao_at (ledger_dao false) token_story in
  treasury_instantiate 3 (Some [Native 70; Cw20 90]) None = Ok (w_treasury (ledger_dao false)) /\
  NoDup [Native 70; Cw20 90] /\ (forall a, In a [Native 70; Cw20 90] <-> listed (w_treasury w) a) /\
  is_ok (world_tx chain dao_at w (mk_tx 4 (clock 2090) 11 (WasmExecute 6 (ToFunds FDistributeNative) [(70, 540)]))) = true /\
  is_ok (world_tx chain dao_at w (mk_tx 4 (clock 2090) 90 (WasmExecute 6 (ToFunds (FReceive 20 true)) []))) = true /\
  is_ok (world_tx chain dao_at w (mk_tx 4 (clock 2090) 11 (WasmExecute 6 (ToFunds FDistributeNative) [(71, 0)]))) = false /\
  is_ok (world_tx chain dao_at (ledger_dao false) (mk_tx 4 (clock 2090) 11 (WasmExecute 6 (ToFunds FDistributeNative) [(70, 540)]))) = false.
Proof. exact sharing_case. Qed.

(** Whatever happens in a DAO, nobody's reward shrinks but by their own claim, or changes at all without a distribution of it or such a claim. *)
Theorem C93_rewards_kept : forall X (Out : outside X) A w0 ts us w w' l minimum initial u a,
  new_dao A w0 ->
  funds_instantiate (a_controller A) (a_enterprise A) minimum initial = Ok (w_funds w0) ->
  w = world_run Out A w0 ts -> w' = world_run Out A w us -> w_log w' = l ++ w_log w ->
  (forall x, In x l -> ~ takes A u a x) ->
  (forall n n', claimable (w_funds w) u a = Ok n -> claimable (w_funds w') u a = Ok n' -> n <= n') /\
  ((forall x, In x l -> ~ brings A a x) -> claimable (w_funds w') u a = claimable (w_funds w) u a).
Proof. exact rewards_kept. Qed.
Print Assumptions C93_rewards_kept.

Example C93_kept_nonvacuous :
  let w := world_run chain dao_at (ledger_dao false) (firstn 4 token_story) in
  let w' := world_run chain dao_at w (firstn 3 (skipn 4 token_story)) in
  (exists l, w_log w' = l ++ w_log w /\ l <> [] /\ (forall x, In x l -> ~ takes dao_at 11 (Native 70) x) /\ (forall x, In x l -> ~ brings dao_at (Native 70) x)) /\
  claimable (w_funds w) 11 (Native 70) = Ok 22 /\ claimable (w_funds w') 11 (Native 70) = Ok 22 /\
  claimable (w_funds (world_run chain dao_at w' (skipn 7 token_story))) 11 (Native 70) = Ok 0.
Proof. exact kept_case. Qed.
