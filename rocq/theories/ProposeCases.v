(** Cases of making proposals. *)
From Verif Require Import Base OMap OMapLemmas Assets PollModel PollSpec FundsModel MemberModel MemberSpec Msgs ControllerModel ControllerSpec
  TreasuryModel EnterpriseModel OutpostsModel WorldModel WorldSpec WorldRun WorldExamples WorldCases TreasuryExamples LiveSpec LiveCases VoteSpec ProposeSpec.

(** The same DAO with tokens of contract 90 for stakes. *)
Definition token_dao : world unit :=
  mk_world
    (mk_enterprise 77 9 30 (mk_metadata 100 None None None None None None) (version 1 0 0) DaoToken true (Some (wiring_of dao_at None)))
    (got (ctl_instantiate (clock 50) 1 DaoToken (w_config true) (Some w_councillors) [] None) (mk_ctl 0 (w_config false) None oempty 0 None None None None))
    (gov_init 3)
    (got (member_instantiate (clock 50) (IToken 1 90 (DTime 2000) [] [] [3])) (MMultisig no_members))
    (got (member_instantiate (clock 50) (IMultisig 1 (Some [(21, 1); (22, 1); (23, 1)]) [] [] [3])) (MMultisig no_members))
    (got (funds_instantiate 3 1 None []) (mk_funds 0 0 0 0 oempty oempty (mk_rewards oempty oempty) (mk_rewards oempty oempty)))
    (got (treasury_instantiate 3 None None) tr_new)
    (mk_outposts 1 oempty oempty oempty 0) [] false tt.
Lemma token_new : new_dao dao_at token_dao.
Proof.
  split.
  - unfold dao_addrs, dao_at. cbn. repeat constructor; cbn; intuition discriminate.
  - reflexivity.
  - exists None. reflexivity.
  - exists (clock 50), DaoToken, (w_config true), (Some w_councillors), None. vm_compute. reflexivity.
  - reflexivity.
  - exists (clock 50), (IToken 1 90 (DTime 2000) [] [] [3]). vm_compute. reflexivity.
  - vm_compute. reflexivity.
  - vm_compute. reflexivity.
  - exists (clock 50), (IMultisig 1 (Some [(21, 1); (22, 1); (23, 1)]) [] [] [3]). vm_compute. reflexivity.
  - reflexivity.
Qed.

Definition a_change : proposal_action := PUpdateMetadata (mk_metadata_update (Change 13) NoChange NoChange NoChange NoChange NoChange NoChange).
Definition lasts_till (r : res (world unit * option N)) (id ends : N) : Prop :=
  match r with Ok (w', _) => option_map p_status (oget (g_polls (w_gov w')) id) = Some (InProgress ends) | Err _ => False end.

Lemma change_formed t v g : Forall (well_formed t v g) [a_change].
Proof. constructor; [apply wf_metadata|constructor]. Qed.

Lemma proposing_case : let w := after true stakes in
  new_dao dao_at (dao true) /\ new_dao dao_at token_dao /\ free_calls idle /\ w_upgraded w = false /\ N.of_nat (length (w_log w)) + 1 < 2 ^ 64 /\
  can_propose idle dao_at w (WithCoins None [(71, 3); (70, 25)]) (e_time (clock 100)) 13 [a_change] /\
  can_propose idle dao_at token_dao (WithTokens 90 20 (Some 12)) (e_time (clock 100)) 13 [a_change] /\
  can_propose idle dao_at w (InCouncil []) (e_time (clock 100)) 21 [a_change] /\
  ~ can_propose idle dao_at w (WithCoins None [(71, 30); (70, 19)]) (e_time (clock 100)) 11 [a_change] /\
  ~ can_propose idle dao_at w (InCouncil []) (e_time (clock 100)) 11 [a_change] /\
  lasts_till (go idle dao_at 4 w (clock 100) (JMsg 13 (proposing dao_at (WithCoins None [(71, 3); (70, 25)]) 13 [a_change]))) 1 (1100 * NANOS) /\
  lasts_till (go idle dao_at 4 token_dao (clock 100) (JMsg 90 (proposing dao_at (WithTokens 90 20 (Some 12)) 13 [a_change]))) 1 (1100 * NANOS) /\
  lasts_till (go idle dao_at 4 w (clock 100) (JMsg 21 (proposing dao_at (InCouncil []) 21 [a_change]))) 1 (1100 * NANOS) /\
  e_time (clock 100) + gc_vote_duration (ct_config (w_ctl w)) * 10 ^ 9 < 2 ^ 64.
Proof.
  cbn zeta. split; [exact (start_new _)|]. split; [exact token_new|]. split; [exact idle_free|]. split; [vm_compute; reflexivity|]. split; [vm_compute; reflexivity|].
  assert (SD : stakes_denom (after true stakes) 70).
  { unfold stakes_denom. destruct (w_member (after true stakes)) as [s|s|s|s] eqn:E; try (vm_compute in E; discriminate E). exists s. split; [reflexivity|].
    assert (K : match w_member (after true stakes) with MDenom s => st_asset s | _ => Native 0 end = Native 70) by (vm_compute; reflexivity). rewrite E in K. exact K. }
  split.
  { split; [vm_compute; reflexivity|]. split; [cbn; lia|]. split; [apply change_formed|]. split; [vm_compute; reflexivity|]. split; [vm_compute; reflexivity|].
    split; [|intros K; discriminate K]. eexists. split.
    - apply (br_coin _ _ None [(71, 3)] 25 [] 70); [vm_compute; reflexivity|exact SD|discriminate|]. cbn. intros [K|[]]. discriminate K.
    - intros _. vm_compute. discriminate. }
  split.
  { split; [vm_compute; reflexivity|]. split; [cbn; lia|]. split; [apply change_formed|]. split; [vm_compute; reflexivity|]. split; [vm_compute; reflexivity|].
    split; [|intros K; discriminate K]. eexists. split.
    - apply br_tokens; [vm_compute; reflexivity| |discriminate]. eexists. split; reflexivity.
    - intros _. vm_compute. discriminate. }
  split.
  { split; [vm_compute; reflexivity|]. split; [cbn; lia|]. split; [apply change_formed|]. split; [vm_compute; reflexivity|]. split; [vm_compute; reflexivity|].
    split; [exists None; split; [apply br_council|intros K; discriminate K]|]. intros _. eexists. split; [vm_compute; reflexivity|]. split; [vm_compute; discriminate|].
    constructor; [left; reflexivity|constructor]. }
  split.
  { intros (_ & _ & _ & _ & _ & (d & Hd & H) & _). specialize (H eq_refl).
    assert (E : gc_minimum_deposit (ct_config (w_ctl (after true stakes))) = Some 20) by (vm_compute; reflexivity). rewrite E in H.
    assert (L : worth d <= 19).
    { inversion Hd as [? ? K|? ? dn K1 K2 K3 K4|? b n a dn K1 K2 K3 K4 K6| |]; subst; try (match goal with Q : _ ++ _ :: _ = _ |- _ => rename Q into K5 end); [exfalso; apply K; vm_compute; reflexivity|cbn; lia|].
      destruct SD as (s & Es & Ea). destruct K2 as (s2 & Es2 & Ea2). rewrite Es in Es2. injection Es2 as <-. rewrite Ea in Ea2. injection Ea2 as <-.
      destruct b as [|(b1, b2) [|b3 b]]; cbn in K5.
      - injection K5 as K5 _. discriminate K5.
      - injection K5 as _ _ <- _. cbn. lia.
      - injection K5 as _ _ _ K5. destruct b; discriminate K5. }
    lia. }
  split. { intros (_ & _ & _ & _ & _ & _ & K). destruct (K eq_refl) as (c & _ & Hc & _). apply Hc. vm_compute. reflexivity. }
  split; [vm_compute; reflexivity|]. split; [vm_compute; reflexivity|]. split; [vm_compute; reflexivity|]. vm_compute. reflexivity.
Qed.

(** The members set the duration of votes to [d] seconds (only zero is refused). *)
Definition lasting_for (d : N) : list tx :=
  stakes ++ [propose 100 11 [PUpdateGovConfig (mk_gov_config_update NoChange NoChange NoChange (Change d) NoChange NoChange NoChange)];
             vote_yes 110 11 1; vote_yes 111 12 1; execute 1100 12 1].

(** 2^55 seconds are a multiple of 2^64 nanoseconds. *)
Lemma lock_case : exists (A : addrs) (w0 : world unit) ts,
  let w := world_run idle A w0 ts in
  new_dao A w0 /\ free_calls idle /\ timely 0 ts /\ lasting w /\ calm A w /\ dead w /\ g_count (w_gov w) = 1 /\ gc_vote_duration (ct_config (w_ctl w)) = 2 ^ 55.
Proof.
  exists dao_at, (dao true), (lasting_for (2 ^ 55)). cbn zeta.
  split; [exact (start_new _)|]. split; [exact idle_free|]. split; [apply timely_check; vm_compute; reflexivity|].
  split; [split; vm_compute; reflexivity|]. split; [apply calm_check; vm_compute; reflexivity|].
  split.
  { split; [vm_compute; reflexivity|]. intros id p Hp.
    assert (E : forallb (fun kv => is_some (pi_executed_at (snd kv))) (elems (ct_proposals (w_ctl (world_run idle dao_at (dao true) (lasting_for (2 ^ 55)))))) = true) by (vm_compute; reflexivity).
    apply oget_In in Hp. rewrite forallb_forall in E. specialize (E _ Hp). cbn [snd] in E. destruct (pi_executed_at p); [discriminate|discriminate E]. }
  split; vm_compute; reflexivity.
Qed.

(** 584 years and a half are 2^64 nanoseconds, and some more. *)
Lemma blink_case : exists (A : addrs) (w0 : world unit) ts e w' pl,
  let w := world_run idle A w0 ts in
  new_dao A w0 /\ free_calls idle /\ timely 0 (ts ++ [mk_tx 60 e 11 (proposing A (WithCoins None [(70, 25)]) 11 [a_change])]) /\ lasting w /\ calm A w /\
  gc_vote_duration (ct_config (w_ctl w)) = 18446744074 /\
  go idle A 4 w e (JMsg 11 (proposing A (WithCoins None [(70, 25)]) 11 [a_change])) = Ok (w', None) /\
  oget (g_polls (w_gov w')) 2 = Some pl /\ p_ends_at pl < p_started_at pl + 10 ^ 9.
Proof.
  assert (H : match go idle dao_at 4 (world_run idle dao_at (dao true) (lasting_for 18446744074)) (clock 2000)
                      (JMsg 11 (proposing dao_at (WithCoins None [(70, 25)]) 11 [a_change])) with
              | Ok (w', None) => match oget (g_polls (w_gov w')) 2 with Some pl => (p_ends_at pl <? p_started_at pl + 10 ^ 9) = true | None => False end
              | _ => False
              end) by (vm_compute; reflexivity).
  destruct (go idle dao_at 4 (world_run idle dao_at (dao true) (lasting_for 18446744074)) (clock 2000)
                      (JMsg 11 (proposing dao_at (WithCoins None [(70, 25)]) 11 [a_change]))) as [(w' & [d|])|] eqn:E1; try contradiction.
  destruct (oget (g_polls (w_gov w')) 2) as [pl|] eqn:E2; [|contradiction].
  exists dao_at, (dao true), (lasting_for 18446744074), (clock 2000), w', pl. cbn zeta.
  split; [exact (start_new _)|]. split; [exact idle_free|]. split; [apply timely_check; vm_compute; reflexivity|].
  split; [split; vm_compute; reflexivity|]. split; [apply calm_check; vm_compute; reflexivity|]. split; [vm_compute; reflexivity|].
  split; [exact E1|]. split; [exact E2|]. apply N.ltb_lt. exact H.
Qed.
