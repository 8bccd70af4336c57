(** Reward weights follow voting weights: the facts about histories, from a new DAO and from its creation. *)
From Verif Require Import Base OMap OMapLemmas Assets PollModel FundsModel FundsSpec FundsProofs FundsFacts MemberModel MemberSpec MemberFacts
  Msgs ControllerModel TreasuryModel EnterpriseModel OutpostsModel FactoryModel FactorySpec WorldModel WorldSpec WorldMember WorldProofs WorldRun
  LiftFacts CreationModel CreationFacts RewardSpec RewardProofs.

Lemma rewards_follow X (Out : outside X) A w0 ts w u : new_dao A w0 -> f_admin (w_funds w0) = a_controller A ->
  w = world_run Out A w0 ts -> lasting w -> undisturbed A w ->
  reward_weight w u = weight_of (w_member w) u \/ as_before w0 w u.
Proof.
  intros HN HF -> (_ & HL) HU. destruct (nd_membership _ _ HN) as (e & i & Hi).
  apply (run_follows Out A (nd_addrs _ _ HN) ts w0 (new_wired A w0 HN)); [|exact HL|exact HU].
  split; [exact (nd_hooks _ _ HN)|exact (nd_member_of _ _ HN)|exact (init_small _ _ _ Hi)|exact HF].
Qed.

Lemma reward_effect X (Out : outside X) A w0 ts w minimum initial : new_dao A w0 ->
  funds_instantiate (a_controller A) (a_enterprise A) minimum initial = Ok (w_funds w0) ->
  w = world_run Out A w0 ts -> lasting w -> undisturbed A w ->
  forall u, reward_weight w0 u = weight_of (w_member w0) u ->
    reward_weight w u = weight_of (w_member w) u /\
    ogetN (f_eff (w_funds w)) u = counted_weight (f_min (w_funds w)) (weight_of (w_member w) u).
Proof.
  intros HN HI HW HL HU u H0.
  assert (HF : f_admin (w_funds w0) = a_controller A) by (apply initial_weights_unique in HI; apply HI).
  assert (E : reward_weight w u = weight_of (w_member w) u).
  { destruct (rewards_follow X Out A w0 ts w u HN HF HW HL HU) as [E|(E1 & E2)]; congruence. }
  split; [exact E|]. destruct (funds_history X Out A w0 ts w HN HW) as (cs & Ec & _).
  assert (R : reachable (books_run (w_funds w0) cs)) by (repeat eexists; exact HI).
  pose proof (eligibility_exact _ u R) as H. cbv zeta in H. rewrite <- Ec in H. rewrite <- E. unfold reward_weight, ogetN. rewrite H.
  unfold counted_weight. destruct (oget (f_weights (w_funds w)) u); [reflexivity|]. cbn. destruct (f_min (w_funds w) <=? 0); reflexivity.
Qed.

(** the sum over one map of what is stored, when another map holds the same *)
Lemma sum_at (f : N -> N) (m : omap N) : f 0 = 0 -> forall ks, NoDup ks -> (forall k, In k (okeys m) -> In k ks) ->
  osum (fun _ x => f x) m = lsum (fun k => f (ogetN m k)) ks.
Proof.
  intros F0 ks HD HI.
  assert (E : lsum (fun k => f (ogetN m k)) ks = lsum (fun k => f (ogetN m k)) (filter (fun k => ohas m k) ks)).
  { rewrite lsum_filter. apply lsum_ext_in. intros k _. unfold ohas, ogetN. destruct (oget m k); [reflexivity|exact F0]. }
  rewrite E. rewrite <- (lsum_perm _ (okeys m)).
  - unfold osum, okeys. rewrite lsum_map. apply lsum_ext_in. intros [k x] Hin. cbn [fst snd]. apply oget_In in Hin. unfold ogetN. rewrite Hin. reflexivity.
  - apply Permutation.NoDup_Permutation; [apply okeys_NoDup|apply NoDup_filter; exact HD|]. intros k. rewrite filter_In. split.
    + intros H. split; [exact (HI k H)|]. apply ohas_true, okeys_In. exact H.
    + intros (_ & H). apply okeys_In, ohas_true. exact H.
Qed.

Lemma same_sum (f : N -> N) (m m' : omap N) : f 0 = 0 -> (forall k, ogetN m k = ogetN m' k) -> osum (fun _ x => f x) m = osum (fun _ x => f x) m'.
Proof.
  intros F0 E. set (ks := nodup N.eq_dec (okeys m ++ okeys m')).
  assert (D : NoDup ks) by apply NoDup_nodup.
  assert (I1 : forall k, In k (okeys m) -> In k ks) by (intros k H; apply nodup_In, in_or_app; left; exact H).
  assert (I2 : forall k, In k (okeys m') -> In k ks) by (intros k H; apply nodup_In, in_or_app; right; exact H).
  rewrite (sum_at f m F0 ks D I1), (sum_at f m' F0 ks D I2). apply lsum_ext_in. intros k _. rewrite E. reflexivity.
Qed.

Lemma reward_total X (Out : outside X) A w0 ts w minimum initial : new_dao A w0 ->
  funds_instantiate (a_controller A) (a_enterprise A) minimum initial = Ok (w_funds w0) ->
  (forall u, reward_weight w0 u = weight_of (w_member w0) u) ->
  w = world_run Out A w0 ts -> lasting w -> undisturbed A w ->
  f_total (w_funds w) = lsum (fun uw => counted_weight (f_min (w_funds w)) (snd uw)) (elems (m_weights (members_of (w_member w)))).
Proof.
  intros HN HI H0 HW HL HU.
  destruct (funds_history X Out A w0 ts w HN HW) as (cs & Ec & _).
  assert (R : reachable (books_run (w_funds w0) cs)) by (repeat eexists; exact HI).
  pose proof (total_exact _ R) as H. cbv zeta in H. rewrite <- Ec in H. rewrite H.
  change (osum (fun _ x => counted_weight (f_min (w_funds w)) x) (f_weights (w_funds w)) =
          osum (fun _ x => counted_weight (f_min (w_funds w)) x) (m_weights (members_of (w_member w)))).
  apply same_sum; [unfold counted_weight; destruct (f_min (w_funds w) <=? 0); reflexivity|]. intros k.
  exact (proj1 (reward_effect X Out A w0 ts w minimum initial HN HI HW HL HU k (H0 k))).
Qed.

(** A DAO created by the factory: only a council member of a DAO without fixed members starts with a reward weight nobody voted for,
    and keeps it until the first own stake. *)
Lemma created_rewards X (Out : outside X) (x : X) o s sender m v fresh s' log eo e b :
  fa_tx s (mk_fa_call o sender (FaCreate m v) fresh) = Ok (s', log) -> NoDup fresh ->
  births_of eo e (fo_self o) log = Ok b ->
  exists d w0, assigned m fresh d /\ dao_of d b x = Some w0 /\
    forall ts u, let w := world_run Out (addrs_of d) w0 ts in lasting w -> undisturbed (addrs_of d) w ->
      let councillor := requested_type (cm_membership m) <> DaoMultisig /\ In u (match cm_council m with Some c => cs_members c | None => [] end) in
      reward_weight w u = weight_of (w_member w) u \/
      (councillor /\ weight_of (w_member w) u = 0 /\ reward_weight w u = 1).
Proof.
  intros H Hf Hb. destruct (creation_gives_dao _ _ _ _ _ _ _ _ _ _ _ H Hf Hb) as (d & H1 & _ & H3).
  destruct (H3 X x) as (w & Hw & _ & Hn & (ini & Hi) & _ & _ & _ & _ & Hg). exists d, w. split; [exact H1|]. split; [exact Hw|].
  intros ts u w1 L U councillor.
  assert (HA : f_admin (w_funds w) = a_controller (addrs_of d)) by (apply initial_weights_unique in Hi; apply Hi).
  destruct (rewards_follow X Out _ w ts w1 u Hn HA eq_refl L U) as [E|(E1 & E2)]; [left; exact E|].
  unfold reward_weight, weight_of, ogetN in *.
  destruct (requested_type (cm_membership m)) eqn:ET.
  1-3: destruct (Hg u) as (G1 & G2); rewrite G1 in E2; rewrite G2 in E1; cbn in E2;
    destruct (existsb (N.eqb u) _) eqn:EX; cbn in E1; [right|left; congruence];
    (split; [split; [congruence|]|split; assumption]);
    apply existsb_exists in EX; destruct EX as (y & Hy & Ey); apply N.eqb_eq in Ey; subst y; exact Hy.
  left. rewrite E1, E2, Hg. reflexivity.
Qed.
