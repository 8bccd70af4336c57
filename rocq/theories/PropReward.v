(** C80: reward weights follow voting weights. *)
From Verif Require Import Base OMap OMapLemmas Assets PollModel FundsModel FundsSpec MemberModel MemberSpec Msgs ControllerModel ControllerSpec
  TreasuryModel EnterpriseModel OutpostsModel FactoryModel FactorySpec FactoryExamples WorldModel WorldSpec WorldExamples CreationModel
  CreationFacts CreationCases RewardSpec RewardFacts RewardCases.

(** C80: in every history of a DAO whose custom messages do not meddle, a user whose weight is known to the distributor has exactly the
    voting weight there; for anyone else neither weight has changed since the start. *)
Theorem C80_rewards_follow : forall X (Out : outside X) A w0 ts w u,
  new_dao A w0 -> f_admin (w_funds w0) = a_controller A ->
  w = world_run Out A w0 ts -> lasting w -> undisturbed A w ->
  reward_weight w u = weight_of (w_member w) u \/ as_before w0 w u.
Proof. exact rewards_follow. Qed.
Print Assumptions C80_rewards_follow.

(** So a user whose weights agreed at the start takes part in distributions with the current voting weight, or not at all below the minimum ... *)
Theorem C80_reward_effect : forall X (Out : outside X) A w0 ts w minimum initial,
  new_dao A w0 ->
  funds_instantiate (a_controller A) (a_enterprise A) minimum initial = Ok (w_funds w0) ->
  w = world_run Out A w0 ts -> lasting w -> undisturbed A w ->
  forall u, reward_weight w0 u = weight_of (w_member w0) u ->
    reward_weight w u = weight_of (w_member w) u /\
    ogetN (f_eff (w_funds w)) u = counted_weight (f_min (w_funds w)) (weight_of (w_member w) u).
Proof. exact reward_effect. Qed.
Print Assumptions C80_reward_effect.

(** ... and the total that distributions are shared by is that of the members who reach the minimum. *)
Theorem C80_reward_total : forall X (Out : outside X) A w0 ts w minimum initial,
  new_dao A w0 ->
  funds_instantiate (a_controller A) (a_enterprise A) minimum initial = Ok (w_funds w0) ->
  (forall u, reward_weight w0 u = weight_of (w_member w0) u) ->
  w = world_run Out A w0 ts -> lasting w -> undisturbed A w ->
  f_total (w_funds w) = lsum (fun uw => counted_weight (f_min (w_funds w)) (snd uw)) (elems (m_weights (members_of (w_member w)))).
Proof. exact reward_total. Qed.
Print Assumptions C80_reward_total.

Example C80_nonvacuous :
  new_dao dao_at fixed_dao /\ funds_instantiate 3 1 (Some 2) [(61, 3); (62, 4)] = Ok (w_funds fixed_dao) /\
  (forall u, reward_weight fixed_dao u = weight_of (w_member fixed_dao) u) /\
  let w := world_run idle dao_at fixed_dao reshuffle in
  lasting w /\ undisturbed dao_at w /\ map (reward_weight w) [61; 62; 63] = [0; 1; 9] /\ map (weight_of (w_member w)) [61; 62; 63] = [0; 1; 9] /\
  f_min (w_funds w) = 2 /\ map (ogetN (f_eff (w_funds w))) [61; 62; 63] = [0; 0; 9] /\ f_total (w_funds w) = 9.
Proof. exact follow_case. Qed.

(** In a DAO created by the factory the weights agree always, but for council members of DAOs with staking who have not staked yet. *)
Theorem C80_created_rewards : forall X (Out : outside X) (x : X) o s sender m v fresh s' log eo e b,
  fa_tx s (mk_fa_call o sender (FaCreate m v) fresh) = Ok (s', log) -> NoDup fresh ->
  births_of eo e (fo_self o) log = Ok b ->
  exists d w0, assigned m fresh d /\ dao_of d b x = Some w0 /\
    forall ts u, let w := world_run Out (addrs_of d) w0 ts in lasting w -> undisturbed (addrs_of d) w ->
      let councillor := requested_type (cm_membership m) <> DaoMultisig /\ In u (match cm_council m with Some c => cs_members c | None => [] end) in
      reward_weight w u = weight_of (w_member w) u \/
      (councillor /\ weight_of (w_member w) u = 0 /\ reward_weight w u = 1).
Proof. exact created_rewards. Qed.
Print Assumptions C80_created_rewards.

Example C80_created_nonvacuous :
  match fresh_token with
  | Some w0 =>
      let A := addrs_of made_token in
      let w := world_run idle A w0 [mk_tx 60 (clock 60) 200 (WasmExecute (a_funds A) (ToFunds FDistributeNative) [(7, 1000)])] in
      map (weight_of (w_member w)) [51; 52; 61] = [0; 0; 0] /\ map (reward_weight w) [51; 52; 61] = [1; 1; 0] /\
      claimable (w_funds w) 51 (Native 7) = Ok 500
  | None => False
  end.
Proof. exact early_rewards_case. Qed.

(** The exception is real: a council member who has no voting weight has a reward weight. *)
Theorem C80_unstaked_refuted : exists (A : addrs) (w0 : world unit) ts u minimum initial,
  new_dao A w0 /\ funds_instantiate (a_controller A) (a_enterprise A) minimum initial = Ok (w_funds w0) /\
  lasting (world_run idle A w0 ts) /\ undisturbed A (world_run idle A w0 ts) /\
  weight_of (w_member (world_run idle A w0 ts)) u = 0 /\ reward_weight (world_run idle A w0 ts) u = 1.
Proof. exact early_refuted. Qed.
Print Assumptions C80_unstaked_refuted.

(** A custom message that sets the member list leaves those dropped from it with their rewards. *)
Theorem C80_disturbed_refuted : exists (A : addrs) (w0 : world unit) ts u minimum initial,
  new_dao A w0 /\ funds_instantiate (a_controller A) (a_enterprise A) minimum initial = Ok (w_funds w0) /\
  (forall v, reward_weight w0 v = weight_of (w_member w0) v) /\ lasting (world_run idle A w0 ts) /\
  weight_of (w_member (world_run idle A w0 ts)) u = 0 /\ reward_weight (world_run idle A w0 ts) u = 3 /\
  ogetN (f_eff (w_funds (world_run idle A w0 ts))) u = 3.
Proof. exact replaced_case. Qed.
Print Assumptions C80_disturbed_refuted.
