(** Facts about the settings of a DAO. *)
From Verif Require Import Base OMap OMapLemmas Assets PollModel PollSpec FundsModel FundsSpec FundsFacts MemberModel MemberSpec MemberFacts Msgs ControllerModel ControllerSpec
  TreasuryModel EnterpriseModel OutpostsModel FactoryModel FactorySpec FactoryFacts WorldModel WorldSpec WorldProofs WorldRun WorldFacts LiftFacts FacadeSpec
  CreationModel CreationFacts PurseSpec PurseProofs PurseFacts RuleSpec RuleProofs.

Lemma settings_small (X : Type) (Out : outside X) A w0 ts1 ts2 w w' k :
  new_dao A w0 -> w = world_run Out A w0 ts1 -> w' = world_run Out A w ts2 -> N.of_nat (length (w_log w')) < 2 ^ 64 -> in_charge A k w ->
  unchanged k w w' \/ touched A k w w'.
Proof.
  intros N -> -> L C. pose proof (run_size Out A ts2 (world_run Out A w0 ts1)) as S. unfold size in S.
  assert (L1 : size (world_run Out A w0 ts1) < M64) by (unfold size; change M64 with (2 ^ 64); lia).
  destruct (run_kept Out A (nd_addrs _ _ N) ts1 w0 (new_wired A w0 N) (new_free A w0 N) L1) as (W & F & _).
  destruct (run_settled Out A (nd_addrs _ _ N) k ts2 _ W F C L) as [(U & _)|T]; auto.
Qed.

(** From any moment of the history of a DAO to any later one. *)
Lemma settings_by_proposals (X : Type) (Out : outside X) A w0 ts1 ts2 w w' k :
  new_dao A w0 -> w = world_run Out A w0 ts1 -> w' = world_run Out A w ts2 -> lasting w' -> in_charge A k w ->
  unchanged k w w' \/ touched A k w w'.
Proof.
  intros N H1 H2 (_ & L) C. exact (settings_small X Out A w0 ts1 ts2 w w' k N H1 H2 L C).
Qed.

(** The transaction in which the DAO upgrades is the last one of which the theorem speaks. *)
Lemma settings_at_upgrade (X : Type) (Out : outside X) A w0 ts w t w' k :
  new_dao A w0 -> w = world_run Out A w0 ts -> lasting w -> w' = world_step Out A w t -> N.of_nat (length (w_log w')) < 2 ^ 64 -> in_charge A k w ->
  unchanged k w w' \/ touched A k w w'.
Proof. intros N H1 _ H2 L C. exact (settings_small X Out A w0 ts [t] w w' k N H1 H2 L C). Qed.

Lemma member_run_keeps cs : forall st, m_enterprise (members_of (member_run st cs)) = m_enterprise (members_of st).
Proof.
  induction cs as [|c cs IH]; intros st; [reflexivity|]. cbn [member_run fold_left]. fold (member_run (fst (member_step st c)) cs). rewrite IH.
  unfold member_step. destruct (member_execute _ _ _ _ _ _) as [[st' outs]|] eqn:H; [|reflexivity].
  exact (proj1 (settings_by_controller st c st' outs H)).
Qed.
Lemma council_run_keeps cs : forall x, exists x', member_run (MMultisig x) cs = MMultisig x' /\ m_enterprise x' = m_enterprise x.
Proof.
  induction cs as [|c cs IH]; intros x; [exists x; split; reflexivity|]. cbn [member_run fold_left]. fold (member_run (fst (member_step (MMultisig x) c)) cs).
  unfold member_step. destruct (member_execute _ _ _ _ _ _) as [[st' outs]|] eqn:H; [|apply IH].
  apply multisig_only in H. destruct H as (_ & x1 & -> & E). destruct (IH x1) as (x' & E1 & E2). exists x'. split; [exact E1|congruence].
Qed.
Lemma funds_run_keeps cs : forall f, f_admin (fold_left (fun f c => fst (funds_step f c)) cs f) = f_admin f.
Proof.
  induction cs as [|c cs IH]; intros f; [reflexivity|]. cbn [fold_left]. rewrite IH.
  unfold funds_step. destruct (funds_execute _ _ _ _ _) as [[f' ps]|] eqn:H; [|reflexivity].
  exact (proj1 (funds_settings _ _ _ _ _ _ _ H)).
Qed.

(** The contracts other than the treasury take the controller's orders forever. *)
Lemma charge_lasts (X : Type) (Out : outside X) A w ts k :
  NoDup (dao_addrs A) -> in_charge A k w -> k <> OfAssets -> k <> OfNfts -> in_charge A k (world_run Out A w ts).
Proof.
  intros HA C K1 K2. destruct k; try exact I; try congruence; cbn [in_charge] in *.
  - destruct C as (m & E1 & E2). destruct (council_lift Out A HA ts w) as (l & css & _ & _ & E & _). rewrite E, E1.
    destruct (council_run_keeps (concat css) m) as (x' & E3 & E4). exists x'. split; [exact E3|congruence].
  - destruct (funds_lift Out A HA ts w) as (l & cs & _ & E & _). rewrite E, funds_run_keeps. exact C.
  - destruct (member_lift Out A HA ts w) as (l & css & _ & _ & E & _). rewrite E, member_run_keeps. exact C.
  - destruct (member_lift Out A HA ts w) as (l & css & _ & _ & E & _). rewrite E, member_run_keeps. exact C.
  - destruct (member_lift Out A HA ts w) as (l & css & _ & _ & E & _). rewrite E, member_run_keeps. exact C.
Qed.

(** The treasury does until it is given to someone else. *)
Lemma treasury_charge (X : Type) (Out : outside X) A w0 ts w k :
  new_dao A w0 -> new_treasury A w0 -> w = world_run Out A w0 ts -> N.of_nat (length (w_log w)) < 2 ^ 64 -> treasury_kept A w -> k = OfAssets \/ k = OfNfts ->
  in_charge A k w.
Proof.
  intros N T -> L K E. destruct (run_obeyed Out A (nd_addrs _ _ N) ts w0 (new_sound A w0 N T) L K) as (_ & _ & _ & _ & O).
  destruct E as [->| ->]; apply O.
Qed.

Lemma ran_in_runs {X} A (w w' : world X) id : ran_since A w w' id -> In id (runs A w').
Proof.
  intros (l & s & coins & E & H). unfold runs. apply in_flat_map. eexists. split; [rewrite E; apply in_app_iff; left; exact H|].
  cbn [snd]. rewrite N.eqb_refl. left. reflexivity.
Qed.

(** If no proposal that was run calls the DAO with messages of choice, the proposal had passed. *)
Lemma settings_voted (X : Type) (Out : outside X) A w0 ts1 ts2 w w' k :
  new_dao A w0 -> w = world_run Out A w0 ts1 -> w' = world_run Out A w ts2 -> lasting w' -> in_charge A k w ->
  timely 0 (ts1 ++ ts2) -> calm A w' ->
  unchanged k w w' \/
  exists id p a pl b o n, ran_since A w w' id /\ oget (ct_proposals (w_ctl w')) id = Some p /\ In a (pi_actions p) /\ concerns A k a = true /\
    pi_executed_at p = Some b /\ oget (g_polls (w_gov w')) id = Some pl /\ p_status pl = Passed o n.
Proof.
  intros N H1 H2 L C T Q. destruct (settings_by_proposals X Out A w0 ts1 ts2 w w' k N H1 H2 L C) as [U|(id & p & a & R & P & I1 & I2)]; [left; exact U|right].
  assert (E : w' = world_run Out A w0 (ts1 ++ ts2)) by (subst; unfold world_run; rewrite fold_left_app; reflexivity).
  rewrite E in L, Q. destruct (actions_of_passed X Out A w0 (ts1 ++ ts2) id N T L Q) as (L1 & P1). rewrite <- E in *.
  apply ran_in_runs in R as R'. rewrite <- runs_count in L1, P1.
  assert (Q1 : In id (filter (fun i => i =? id) (runs A w'))) by (apply filter_In; split; [exact R'|apply N.eqb_refl]).
  destruct P1 as (_ & p' & pl & b & o & n & P2 & P3 & P4 & P5).
  { destruct (filter (fun i => i =? id) (runs A w')); [destruct Q1|]. cbn [length] in *. lia. }
  rewrite P in P2. injection P2 as <-. exists id, p, a, pl, b, o, n. auto 10.
Qed.

(** * DAOs created by the factory *)

(** Every membership contract in place was instantiated. *)
Lemma births_member eo e f l : forall b b' a st, fold_res (birth eo e f) b l = Ok b' -> oget (bi_member b') a = Some st ->
  oget (bi_member b) a = Some st \/ exists i, born l a (InitMember i) /\ member_instantiate e i = Ok st.
Proof.
  induction l as [|x l IH]; intros b b' a st H Ha; [inversion H; subst; auto|].
  apply fold_res_one in H. destruct H as (b1 & H1 & H). destruct (IH _ _ _ _ H Ha) as [G|(i & (ad & co & G1) & G2)].
  2:{ right. exists i. split; [exists ad, co; right; exact G1|exact G2]. }
  destruct x as [c ad co i|m].
  - destruct i; cbn [birth] in H1; try (apply bind_ok in H1; destruct H1 as (? & HI & H1)); injection H1 as <-; cbn [bi_member] in G; auto.
    rewrite oget_oset in G. destruct (N.eqb_spec c a) as [->|NE].
    + injection G as ->. right. eexists. split; [exists ad, co; left; reflexivity|exact HI].
    + auto.
  - left. destruct m; cbn [birth] in H1; try (injection H1 as <-; exact G). destruct m; try (injection H1 as <-; exact G).
    apply bind_ok in H1. destruct H1 as (? & _ & H1). apply bind_ok in H1. destruct H1 as ([? ?] & _ & H1). injection H1 as <-. exact G.
Qed.

Lemma assigned_once m fresh d1 d2 : assigned m fresh d1 -> assigned m fresh d2 -> d1 = d2.
Proof.
  intros ((r1 & E1) & _ & T1 & A1) ((r2 & E2) & _ & T2 & A2). rewrite E1 in E2. rewrite <- T2 in T1. rewrite <- A2 in A1. clear T2 A2 E1.
  unfold contracts in E2. destruct d1 as [? ? ? ? ? ? t1 ? ? a1], d2 as [? ? ? ? ? ? t2 ? ? a2].
  destruct t1, t2, a1, a2; try discriminate T1; try discriminate A1; injection E2; intros; subst; reflexivity.
Qed.

Lemma created_in_charge (X : Type) (x : X) o s sender m v fresh s' log eo e b :
  fa_tx s (mk_fa_call o sender (FaCreate m v) fresh) = Ok (s', log) -> NoDup fresh -> births_of eo e (fo_self o) log = Ok b ->
  exists d w0, assigned m fresh d /\ dao_of d b x = Some w0 /\ new_dao (addrs_of d) w0 /\ new_treasury (addrs_of d) w0 /\
    forall k, in_charge (addrs_of d) k w0.
Proof.
  intros H Hf Hb. destruct (creation_gives_dao _ _ _ _ _ _ _ _ _ _ _ H Hf Hb) as (d & H1 & _ & H3).
  destruct (H3 X x) as (w0 & Hw & _ & Hn & (ini & HF) & Ht & _). exists d, w0. split; [exact H1|]. split; [exact Hw|]. split; [exact Hn|].
  assert (HT : new_treasury (addrs_of d) w0) by (eexists _, _; exact Ht). split; [exact HT|].
  pose proof (new_sound _ _ Hn HT) as (_ & _ & _ & O).
  intros k. destruct k; try exact I; cbn [in_charge].
  - apply creation_exact in H. destruct H as (vi & ws & d' & _ & _ & H1' & _ & ->). rewrite (assigned_once _ _ _ _ H1' H1) in Hb. clear d' H1'.
    assert (Hc : oget (bi_member b) (d_council d) = Some (w_council w0)).
    { unfold dao_of in Hw. destruct (oget (bi_enterprise b) (d_enterprise d)), (oget (bi_ctl b) (d_controller d)), (oget (bi_gov b) (d_governance d)),
        (oget (bi_member b) (d_membership d)), (oget (bi_member b) (d_council d)), (oget (bi_funds b) (d_funds d)), (oget (bi_treasury b) (d_treasury d)),
        (oget (bi_outposts b) (d_outposts d)); try discriminate Hw. injection Hw as <-. reflexivity. }
    pose proof (fresh_contracts _ _ _ H1 Hf) as Hd. pose proof (council_membership d Hd) as Hcm.
    destruct (births_member _ _ _ _ _ _ _ _ Hb Hc) as [G|(i & Hi & Hst)]; [cbn in G; rewrite oget_empty in G; discriminate|].
    pose proof (creation_hooks _ _ _ _ _ _ _ _ _ _ Hi Hst) as (E & _).
    apply born_log in Hi.
    assert (Hm : exists en l bh bs hk, i = IMultisig en l bh bs hk).
    { destruct Hi as [(_ & Hi)|[(_ & Hi)|[(_ & Hi)|[(_ & Hi)|[(_ & Hi)|[(_ & Hi)|[Hi|[(_ & Hi)|(_ & ? & Hi)]]]]]]]]; try discriminate Hi.
      - injection Hi as ->. eauto 8.
      - exfalso. destruct Hi as (ad & co & Hi). unfold membership_log in Hi.
        destruct H1 as (_ & _ & Ht1 & _). destruct (cm_membership m); cbn [wants_token] in Ht1; cbn [In] in Hi;
          try (destruct (d_token d); [|discriminate Ht1]); cbn [In] in Hi; intuition congruence. }
    destruct Hm as (en & l & bh & bs & hk & ->). cbn [member_instantiate] in Hst. apply bind_ok in Hst. destruct Hst as (mm & _ & Hst). injection Hst as Hst.
    exists mm. split; [congruence|]. rewrite <- Hst in E. exact E.
  - apply initial_weights_unique in HF. exact (proj1 (proj2 HF)).
  - apply O.
  - apply O.
  - exact (nd_member_of _ _ Hn).
  - exact (nd_member_of _ _ Hn).
  - exact (nd_member_of _ _ Hn).
Qed.

(** In a DAO created by the factory nothing has to be assumed about the start. *)
Lemma created_settings (X : Type) (Out : outside X) (x : X) o s sender m v fresh s' log eo e b :
  fa_tx s (mk_fa_call o sender (FaCreate m v) fresh) = Ok (s', log) -> NoDup fresh -> births_of eo e (fo_self o) log = Ok b ->
  exists d w0, assigned m fresh d /\ dao_of d b x = Some w0 /\
    forall ts1 ts2 k, let A := addrs_of d in let w := world_run Out A w0 ts1 in let w' := world_run Out A w ts2 in
      lasting w' -> (k = OfAssets \/ k = OfNfts -> treasury_kept A w) ->
      unchanged k w w' \/ touched A k w w'.
Proof.
  intros H Hf Hb. destruct (created_in_charge X x _ _ _ _ _ _ _ _ _ _ _ H Hf Hb) as (d & w0 & H1 & Hw & Hn & HT & HC). exists d, w0. split; [exact H1|]. split; [exact Hw|].
  intros ts1 ts2 k A w w' L K. apply (settings_by_proposals X Out A w0 ts1 ts2 w w' k Hn eq_refl eq_refl L).
  assert (D : (k = OfAssets \/ k = OfNfts) \/ (k <> OfAssets /\ k <> OfNfts)) by (destruct k; auto; right; split; discriminate).
  destruct D as [D|(D1 & D2)].
  - pose proof (run_size Out A ts2 w) as S. unfold size in S. destruct L as (_ & L). fold w' in S.
    apply (treasury_charge X Out A w0 ts1 w k Hn HT eq_refl); [lia|exact (K D)|exact D].
  - exact (charge_lasts X Out A w0 ts1 k (nd_addrs _ _ Hn) (HC k) D1 D2).
Qed.
