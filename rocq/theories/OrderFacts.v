(** What the controller and the enterprise contract of a DAO send, from its creation on. *)
From Verif Require Import Base OMap OMapLemmas Assets PollModel PollSpec PollProofs PollFacts FundsModel FundsSpec FundsFacts MemberModel MemberSpec
  MemberProofs MemberFacts Msgs ControllerModel ControllerSpec ControllerProofs ControllerFacts TreasuryModel TreasurySpec TreasuryProofs
  EnterpriseModel EnterpriseSpec EnterpriseFacts OutpostsModel FactoryModel FactorySpec FactoryFacts WorldModel WorldSpec WorldMember WorldProofs WorldRun LiftFacts FacadeSpec
  CreationModel CreationFacts RewardProofs PurseSpec PurseProofs RuleSpec RuleProofs RuleFacts OrderSpec OrderProofs.

Lemma nothing_sent (l : list (addr * cosmos_msg)) s m before : l = [] -> ~ sent_after l s m before.
Proof. intros -> (later & E). destruct later; discriminate E. Qed.

(** Everything the controller sends is routine, or was ordered by a proposal run before. *)
Lemma controller_sends (X : Type) (Out : outside X) A w0 ts w m before :
  new_dao A w0 -> w = world_run Out A w0 ts -> N.of_nat (length (w_log w)) < 2 ^ 64 -> sent_after (w_log w) (a_controller A) m before ->
  routine A w m \/ commanded A w before m.
Proof.
  intros N -> L H. apply (run_excused Out A (nd_addrs _ _ N) ts w0 (new_wired _ _ N) (new_free A w0 N)); [|exact L|exact H].
  intros y b Q. destruct (nothing_sent _ _ _ _ (nd_log _ _ N) Q).
Qed.

(** Everything the enterprise contract sends the controller has told it before. *)
Lemma new_obeys (X : Type) A (w0 : world X) : new_dao A w0 -> w_upgraded w0 = false -> obeys A w0.
Proof.
  intros N U. split; [exact (wi_en _ _ (new_wired _ _ N))|]. split.
  - intros y b Q. destruct (nothing_sent _ _ _ _ (nd_log _ _ N) Q).
  - intros Q. congruence.
Qed.
Lemma enterprise_sends (X : Type) (Out : outside X) A w0 ts w m before :
  new_dao A w0 -> w_upgraded w0 = false -> w = world_run Out A w0 ts -> sent_after (w_log w) (a_enterprise A) m before ->
  exists em coins, In (a_controller A, WasmExecute (a_enterprise A) (ToEnterprise em) coins) before /\ yields A em m.
Proof. intros N U -> H. exact (proj1 (proj2 (run_obeys Out A (nd_addrs _ _ N) ts w0 (new_obeys _ _ _ N U))) _ _ H). Qed.

Lemma sent_within log s m before s1 m1 : sent_after log s m before -> In (s1, m1) before -> exists l, sent_after log s1 m1 l /\ exists k, before = k ++ l.
Proof.
  intros (later & E) H. apply in_split in H. destruct H as (l1 & l2 & ->). exists l2. split; [exists (later ++ (s, m) :: l1); rewrite E, <- app_assoc; reflexivity|].
  exists (l1 ++ [(s1, m1)]). rewrite <- app_assoc. reflexivity.
Qed.

Lemma routine_not_enterprise (X : Type) A (w : world X) em coins : ~ routine A w (WasmExecute (a_enterprise A) (ToEnterprise em) coins).
Proof.
  intros R. remember (WasmExecute (a_enterprise A) (ToEnterprise em) coins) as mm eqn:E. destruct R; try discriminate E.
  subst m. match goal with Q : In _ (deposit_msgs _ _) |- _ => rename Q into H5 end.
  destruct (dp_asset d); cbn [deposit_msgs] in H5; [destruct H5 as [H5|[]]; discriminate H5|destruct H5 as [H5|[]]; discriminate H5|].
  apply in_map_iff in H5. destruct H5 as (t & H5 & _). discriminate H5.
Qed.

(** What the controller tells the enterprise contract, a proposal tells the controller. *)
Lemma enterprise_ordered (X : Type) (Out : outside X) A w0 ts w m before :
  new_dao A w0 -> w_upgraded w0 = false -> w = world_run Out A w0 ts -> N.of_nat (length (w_log w)) < 2 ^ 64 -> sent_after (w_log w) (a_enterprise A) m before ->
  exists id p a em coins, In id (ran A before) /\ oget (ct_proposals (w_ctl w)) id = Some p /\ In a (pi_actions p) /\
    commands A a (WasmExecute (a_enterprise A) (ToEnterprise em) coins) /\ yields A em m.
Proof.
  intros N U Hw L H. destruct (enterprise_sends X Out A w0 ts w m before N U Hw H) as (em & coins & Hin & Y).
  destruct (sent_within _ _ _ _ _ _ H Hin) as (l & S & (k & ->)).
  destruct (controller_sends X Out A w0 ts w _ l N Hw L S) as [R|(id & p & a & H1 & H2 & H3 & H4)].
  - destruct (routine_not_enterprise _ _ _ _ _ R).
  - exists id, p, a, em, coins. split; [exact (ran_grow _ _ _ _ H1)|]. auto.
Qed.

Lemma recoding_given A msgs m : In (Some m) msgs -> recodes A m = true -> existsb (recodes A) (given msgs) = true.
Proof. intros H R. apply existsb_exists. exists m. split; [apply given_in; exact H|exact R]. Qed.

(** The action that leads to a change of code is about it. *)
Lemma action_about A a em coins m : commands A a (WasmExecute (a_enterprise A) (ToEnterprise em) coins) -> yields A em m -> recodes A m = true ->
  about_code A a = true /\ (picks_code A a = true \/ exists v msgs, em = EnUpgradeDao v msgs).
Proof.
  intros C Y R. destruct a; cbn [commands] in C; cbn [about_code picks_code].
  - injection C as -> _. destruct Y.
  - destruct C as (d & _ & mm & _ & C). discriminate C.
  - destruct c; discriminate C.
  - destruct target; discriminate C.
  - destruct target; discriminate C.
  - destruct target; discriminate C.
  - injection C as -> _. split; [reflexivity|right; eauto].
  - assert (IN := proj2 (given_in msgs _) C).
    assert (D : orders_recoding A em = true).
    { destruct em; cbn in Y; try contradiction; cbn [orders_recoding]; [reflexivity|destruct Y as (? & ->); discriminate R|exact (recoding_given _ _ _ Y R)]. }
    split.
    + apply existsb_exists. eexists. split; [exact IN|]. cbn. rewrite N.eqb_refl. exact D.
    + destruct em; cbn in Y; try contradiction; [right; eauto|destruct Y as (? & ->); discriminate R|].
      left. apply existsb_exists. eexists. split; [exact IN|]. cbn. rewrite N.eqb_refl. exact (recoding_given _ _ _ Y R).
  - destruct target; discriminate C.
  - injection C as -> _. cbn in Y. pose proof (recoding_given _ _ _ Y R). auto.
  - discriminate C.
  - discriminate C.
  - discriminate C.
  - discriminate C.
Qed.

(** The code of the contracts of a DAO, and who may change it, changes only by proposals about that. *)
Lemma code_by_proposals (X : Type) (Out : outside X) A w0 ts w :
  new_dao A w0 -> w_upgraded w0 = false -> w = world_run Out A w0 ts -> N.of_nat (length (w_log w)) < 2 ^ 64 -> w_upgraded w = true ->
  exists m before id p a, sent_after (w_log w) (a_enterprise A) m before /\ recodes A m = true /\
    In id (ran A before) /\ oget (ct_proposals (w_ctl w)) id = Some p /\ In a (pi_actions p) /\ about_code A a = true.
Proof.
  intros N U Hw L F. pose proof (run_obeys Out A (nd_addrs _ _ N) ts w0 (new_obeys _ _ _ N U)) as (_ & _ & G). rewrite <- Hw in G.
  destruct (G F) as (m & before & S & R). destruct (enterprise_ordered X Out A w0 ts w m before N U Hw L S) as (id & p & a & em & coins & H1 & H2 & H3 & H4 & H5).
  exists m, before, id, p, a. repeat (split; [assumption|]). exact (proj1 (action_about _ _ _ _ _ H4 H5 R)).
Qed.

(** With the condition of the votes, the proposal had passed. *)
Lemma code_voted (X : Type) (Out : outside X) A w0 ts w :
  new_dao A w0 -> w_upgraded w0 = false -> w = world_run Out A w0 ts -> N.of_nat (length (w_log w)) < 2 ^ 64 -> w_upgraded w = true ->
  timely 0 ts -> calm A w ->
  exists id p a pl b o n, In id (runs A w) /\ oget (ct_proposals (w_ctl w)) id = Some p /\ In a (pi_actions p) /\ about_code A a = true /\
    pi_executed_at p = Some b /\ oget (g_polls (w_gov w)) id = Some pl /\ p_status pl = Passed o n.
Proof.
  intros N U Hw L F T C. destruct (code_by_proposals X Out A w0 ts w N U Hw L F) as (m & before & id & p & a & (later & S) & R & H1 & H2 & H3 & H4).
  pose proof (run_core Out A (nd_addrs _ _ N) ts 0 w0 (new_core _ _ N) (new_votes _ _ N) T) as K. rewrite <- Hw in K. destruct (K L C) as (K1 & _).
  assert (I : In id (runs A w)) by (change (runs A w) with (ran A (w_log w)); rewrite S; apply (ran_grow A _ (later ++ [(a_enterprise A, m)])) in H1; rewrite <- app_assoc in H1; exact H1).
  assert (AC : acted A w id).
  { unfold runs in I. apply in_flat_map in I. destruct I as ((s & y) & I1 & I2). cbn [snd] in I2. destruct y as [| to wm coins | | | | |]; try destruct I2.
    destruct wm; try destruct I2. match goal with c : controller_msg |- _ => destruct c; try destruct I2 end. destruct (N.eqb_spec to (a_controller A)) as [->|]; [|destruct I2].
    destruct I2 as [->|[]]. destruct (c_order _ _ _ K1 _ _ _ I1) as (-> & ->). exact I1. }
  destruct (c_acted _ _ _ K1 id AC) as (p' & b & o & n & Hp & Hb & Hs). rewrite H2 in Hp. injection Hp as <-. unfold status_of in Hs.
  destruct (oget (g_polls (w_gov w)) id) as [pl|] eqn:EP; [|discriminate]. injection Hs as Hs. exists id, p, a, pl, b, o, n. auto 10.
Qed.

(** A DAO whose proposals only follow a registry of this repository's code keeps to it. *)
Lemma upgrades_followed (X : Type) (Out : outside X) A w0 ts w :
  new_dao A w0 -> w_upgraded w0 = false -> typed w0 -> own_versions Out -> w = world_run Out A w0 ts -> N.of_nat (length (w_log w)) < 2 ^ 64 ->
  (forall id p a, In id (runs A w) -> oget (ct_proposals (w_ctl w)) id = Some p -> In a (pi_actions p) -> picks_code A a = false) ->
  lasting w.
Proof.
  intros N U T O Hw L H. split; [|exact L]. destruct (w_upgraded w) eqn:F; [exfalso|reflexivity].
  assert (S0 : follows Out A w0).
  { split; [exact (wi_en _ _ (new_wired _ _ N))|]. split; [exact T|]. split; [intros y b Q; destruct (nothing_sent _ _ _ _ (nd_log _ _ N) Q)|intros Q; congruence]. }
  pose proof (run_follows Out A (nd_addrs _ _ N) O ts w0 S0) as (_ & _ & TL & G). rewrite <- Hw in *.
  destruct (G F) as (m & before & S & R & NO). destruct (TL _ _ S) as (em & coins & Hin & Y).
  destruct (sent_within _ _ _ _ _ _ S Hin) as (l & S' & (k & ->)).
  destruct (controller_sends X Out A w0 ts w _ l N Hw L S') as [Q|(id & p & a & H1 & H2 & H3 & H4)].
  - exact (routine_not_enterprise _ _ _ _ _ Q).
  - assert (Y' : yields A em m) by (destruct em; try exact Y; destruct Y as (code & b & -> & _); cbn; eauto).
    destruct (action_about _ _ _ _ _ H4 Y' R) as (_ & [P|(v & msgs & ->)]).
    + rewrite (H id p a) in P; [discriminate P| |exact H2|exact H3]. change (runs A w) with (ran A (w_log w)). destruct S as (later & ->).
      apply (ran_grow A _ (later ++ (a_enterprise A, m) :: k)) in H1. rewrite <- app_assoc in H1. exact H1.
    + exact (NO Y).
Qed.

(** * DAOs created by the factory *)

Lemma created_typed (X : Type) (x : X) o s sender m v fresh s' log eo e b :
  fa_tx s (mk_fa_call o sender (FaCreate m v) fresh) = Ok (s', log) -> NoDup fresh -> births_of eo e (fo_self o) log = Ok b ->
  exists d w0, assigned m fresh d /\ dao_of d b x = Some w0 /\ new_dao (addrs_of d) w0 /\ w_upgraded w0 = false /\ typed w0.
Proof.
  intros H Hf Hb. destruct (creation_gives_dao _ _ _ _ _ _ _ _ _ _ _ H Hf Hb) as (d & H1 & _ & H3).
  destruct (H3 X x) as (w0 & Hw & _ & Hn & _ & _ & _ & _ & HT & _). exists d, w0. split; [exact H1|]. split; [exact Hw|]. split; [exact Hn|].
  apply creation_exact in H. destruct H as (vi & ws & d' & _ & _ & H1' & _ & ->). rewrite (assigned_once _ _ _ _ H1' H1) in Hb. clear d' H1'.
  assert (Hc : oget (bi_member b) (d_council d) = Some (w_council w0) /\ oget (bi_member b) (d_membership d) = Some (w_member w0) /\ w_upgraded w0 = false).
  { unfold dao_of in Hw. destruct (oget (bi_enterprise b) (d_enterprise d)), (oget (bi_ctl b) (d_controller d)), (oget (bi_gov b) (d_governance d)),
      (oget (bi_member b) (d_membership d)), (oget (bi_member b) (d_council d)), (oget (bi_funds b) (d_funds d)), (oget (bi_treasury b) (d_treasury d)),
      (oget (bi_outposts b) (d_outposts d)); try discriminate Hw. injection Hw as <-. repeat split; reflexivity. }
  destruct Hc as (Hc & Hm & Hu). split; [exact Hu|].
  pose proof (fresh_contracts _ _ _ H1 Hf) as Hd. pose proof (council_membership d Hd) as Hcm.
  destruct (births_member _ _ _ _ _ _ _ _ Hb Hc) as [G|(i & Hi & Hst)]; [cbn in G; rewrite oget_empty in G; discriminate|].
  destruct (births_member _ _ _ _ _ _ _ _ Hb Hm) as [G|(j & Hj & Hsj)]; [cbn in G; rewrite oget_empty in G; discriminate|].
  apply born_log in Hi, Hj. pose proof H1 as (_ & _ & Ht1 & _).
  split.
  - rewrite HT. destruct Hj as [(_ & Hj)|[(_ & Hj)|[(_ & Hj)|[(Ej & Hj)|[(_ & Hj)|[(_ & Hj)|[Hj|[(_ & Hj)|(_ & ? & Hj)]]]]]]]]; try discriminate Hj.
    + congruence.
    + destruct Hj as (ad & co & Hj). unfold membership_log in Hj.
      destruct (cm_membership m); cbn [requested_type]; try (destruct (d_token d)); cbn [In] in Hj;
        repeat (destruct Hj as [Hj|Hj]; [try discriminate Hj; injection Hj as _ _ <-; cbn [member_instantiate] in Hsj; apply bind_ok in Hsj; destruct Hsj as (z & _ & Hsj); injection Hsj as <-; exact I|]); contradiction.
  - destruct Hi as [(_ & Hi)|[(_ & Hi)|[(_ & Hi)|[(_ & Hi)|[(_ & Hi)|[(_ & Hi)|[Hi|[(_ & Hi)|(_ & ? & Hi)]]]]]]]]; try discriminate Hi.
    + injection Hi as ->. cbn [member_instantiate] in Hst. apply bind_ok in Hst. destruct Hst as (z & _ & Hst). injection Hst as <-. eauto.
    + exfalso. destruct Hi as (ad & co & Hi). unfold membership_log in Hi.
      destruct (cm_membership m); cbn [wants_token] in Ht1; cbn [In] in Hi;
        try (destruct (d_token d); [|discriminate Ht1]); cbn [In] in Hi; intuition congruence.
Qed.
