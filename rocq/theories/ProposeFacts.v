(** When proposals can be made, and how long their votes last. *)
From Verif Require Import Base OMap OMapLemmas Assets PollModel PollSpec PollProofs PollFacts FundsModel FundsSpec MemberModel MemberSpec MemberProofs MemberFacts Msgs
  ControllerModel ControllerSpec ControllerProofs ControllerFacts TreasuryModel EnterpriseModel OutpostsModel WorldModel WorldSpec WorldMember
  WorldProofs WorldRun WorldFacts LiftFacts LiveSpec LiveProofs LiveFacts LiveResults VoteSpec VoteFacts ProposeSpec.

(** * The configuration stays sane *)
Definition sane_rules (s : ctl) : Prop := (exists t, sane_config t (ct_config s)) /\ council_ok (ct_council s).

Lemma sane_step self s c : sane_rules s -> sane_rules (fst (ctl_step self s c)).
Proof.
  intros H. unfold ctl_step. destruct (ctl_handle self s c) as [[s' out]|] eqn:E; [|exact H]. cbn [fst]. destruct H as (H1 & H2).
  unfold ctl_handle in E. destruct (cc_event c) as [sender coins m|id r].
  - apply (call_config _ _ _ _ _ _ _ _ _ (fun g => exists t, sane_config t g) council_ok) in E; try assumption.
    + intros t g u _ Hv. exists t. exact (proj1 (validate_gov_config_ok _ _ _) Hv).
    + exact validate_council_sane.
  - apply reply_frame in E. destruct E as (E1 & E2 & _). unfold sane_rules. rewrite E1, E2. auto.
Qed.
Lemma sane_run self cs : forall s, sane_rules s -> sane_rules (ctl_run self s cs).
Proof.
  induction cs as [|c cs IH]; intros s H; [exact H|]. apply (IH (fst (ctl_step self s c))). apply sane_step. exact H.
Qed.
Lemma run_sane X (Out : outside X) A w0 ts : new_dao A w0 -> sane_rules (w_ctl (world_run Out A w0 ts)).
Proof.
  intros N. destruct (controller_history X Out A w0 ts _ N eq_refl) as (css & _ & -> & _). apply sane_run.
  destruct (nd_controller _ _ N) as (e & t & g & c & tr & H). apply instantiate_config in H. destruct H as (H1 & H2). split; [exists t; exact H1|exact H2].
Qed.

(** * Deposits *)
Lemma find_first (dn : N) (coins : list coin) :
  match find (fun x : coin => fst x =? dn) coins with
  | Some (d, n) => d = dn /\ exists l1 l2, coins = l1 ++ (dn, n) :: l2 /\ ~ In dn (map fst l1)
  | None => ~ In dn (map fst coins)
  end.
Proof.
  induction coins as [|(d, n) l IH]; [intros []|]. cbn [find fst]. destruct (N.eqb_spec d dn) as [->|NE].
  - split; [reflexivity|]. exists [], l. split; [reflexivity|]. intros [].
  - destruct (find _ l) as [(d', n')|].
    + destruct IH as (-> & l1 & l2 & -> & H). split; [reflexivity|]. exists ((d, n) :: l1), l2. split; [reflexivity|]. cbn. intros [E|E]; [exact (NE E)|exact (H E)].
    + cbn. intros [E|E]; [exact (NE E)|exact (IH E)].
Qed.
Lemma first_unique (dn n n' : N) (l1 l1' l2 l2' : list coin) : l1 ++ (dn, n) :: l2 = l1' ++ (dn, n') :: l2' ->
  ~ In dn (map fst l1) -> ~ In dn (map fst l1') -> n = n'.
Proof.
  revert l1'. induction l1 as [|(d, k) l1 IH]; intros [|(d', k') l1'] E H1 H2; cbn [app] in E.
  - injection E as E _. exact E.
  - injection E as <- <- _. destruct H2. left. reflexivity.
  - injection E as <- <- _. destruct H1. left. reflexivity.
  - injection E as _ _ E. apply (IH l1' E); intros K; [apply H1|apply H2]; right; exact K.
Qed.


Lemma owner_is owner u : u <> 0 -> deposit_owner owner u = if match owner with Some a => a =? 0 | None => false end then Err EInvalidAddr else Ok (owned_by owner u).
Proof. intros H. destruct owner as [a|]; [|reflexivity]. cbn. unfold addr_validate. destruct (a =? 0); reflexivity. Qed.
Lemma owner_valid (owner : option N) : match owner with Some a => a =? 0 | None => false end = false <-> owner <> Some 0.
Proof. destruct owner as [a|]; split; intros H; try discriminate; try reflexivity; [intros E; injection E as ->; discriminate|]. apply N.eqb_neq. congruence. Qed.

Lemma brings_same X (w w1 : world X) u y d : w_enterprise w1 = w_enterprise w -> w_member w1 = w_member w -> brings w u y d -> brings w1 u y d.
Proof.
  intros E1 E2 H. destruct H.
  - apply br_unasked. rewrite E1. assumption.
  - apply (br_nothing _ _ _ _ dn); try assumption; [rewrite E1; assumption|]. unfold stakes_denom. rewrite E2. assumption.
  - apply br_coin; try assumption; [rewrite E1; assumption|]. unfold stakes_denom. rewrite E2. assumption.
  - apply br_tokens; try assumption; [rewrite E1; assumption|]. unfold stakes_token. rewrite E2. assumption.
  - apply br_council.
Qed.

Section P.
Context {X : Type}.
Variable Out : outside X.
Variable A : addrs.
Hypothesis HA : NoDup (dao_addrs A).
Hypothesis HF : free_calls Out.

Section Oracle.
Variable w : world X.
Hypothesis W : wired A w.
Variable att : option addr.
Hypothesis HC : co_components (ctl_oracle_of Out A w) = Ok (wiring_of A att).

Lemma type_is : co_dao_type (ctl_oracle_of Out A w) = Ok (en_type (w_enterprise w)).
Proof. cbn [co_dao_type ctl_oracle_of]. unfold enterprise_at. rewrite (wi_of _ _ W), N.eqb_refl. reflexivity. Qed.
Lemma version_is : co_dao_version (ctl_oracle_of Out A w) = Ok (en_version (w_enterprise w)).
Proof. cbn [co_dao_version ctl_oracle_of]. unfold enterprise_at. rewrite (wi_of _ _ W), N.eqb_refl. reflexivity. Qed.
Lemma restricted_is u : co_restricted (ctl_oracle_of Out A w) u = restricted_by Out A w (a_enterprise A) u.
Proof. cbn [co_restricted ctl_oracle_of]. rewrite (wi_of _ _ W). reflexivity. Qed.
Lemma denom_is dn : co_denom_config (ctl_oracle_of Out A w) (a_membership A) = Ok dn <-> stakes_denom w dn.
Proof.
  cbn [co_denom_config ctl_oracle_of]. unfold members_at, stakes_denom. rewrite N.eqb_refl. cbn [bind]. split.
  - destruct (w_member w); try discriminate. destruct (st_asset s) eqn:E; try discriminate. intros H. injection H as ->. eauto.
  - intros (s & -> & ->). reflexivity.
Qed.
Lemma token_is t : co_token_config (ctl_oracle_of Out A w) (a_membership A) = Ok t <-> stakes_token w t.
Proof.
  cbn [co_token_config ctl_oracle_of]. unfold members_at, stakes_token. rewrite N.eqb_refl. cbn [bind]. split.
  - destruct (w_member w); try discriminate. destruct (st_asset s) eqn:E; try discriminate. intros H. injection H as ->. eauto.
  - intros (s & -> & ->). reflexivity.
Qed.

(** the deposit the controller finds *)
Definition found (u : addr) (owner : option N) (coins : list coin) : res (option deposit) :=
  match en_type (w_enterprise w) with
  | DaoDenom =>
      c <- co_components (ctl_oracle_of Out A w) ;;
      denom <- co_denom_config (ctl_oracle_of Out A w) (c_membership c) ;;
      depositor <- deposit_owner owner u ;;
      Ok (match find (fun x : coin => fst x =? denom) coins with
          | Some (dn, a) => Some (mk_deposit depositor (DDenom dn a))
          | None => None
          end)
  | _ => Ok None
  end.
Lemma found_is u owner coins d : u <> 0 -> found u owner coins = Ok d <-> brings w u (WithCoins owner coins) d.
Proof.
  intros Hu. unfold found. split.
  - intros H. destruct (en_type (w_enterprise w)) eqn:Et; try (inversion H; subst; apply br_unasked; congruence).
    rewrite HC in H. cbn [bind] in H. apply bind_ok in H. destruct H as (dn & H1 & H). apply denom_is in H1.
    rewrite owner_is in H by exact Hu. destruct (match owner with Some a => a =? 0 | None => false end) eqn:Eo; [discriminate|]. apply owner_valid in Eo. cbn [bind] in H.
    pose proof (find_first dn coins) as F. destruct (find _ coins) as [(dn', n)|]; injection H as <-.
    + destruct F as (-> & l1 & l2 & -> & F). apply br_coin; assumption.
    + exact (br_nothing w u owner coins dn Et H1 Eo F).
  - intros H. inversion H as [? ? Ht|? ? dn Ht Hs Ho Hn|? before n aft dn Ht Hs Ho Hn| |]; subst.
    + destruct (en_type (w_enterprise w)); try reflexivity. congruence.
    + rewrite Ht, HC. cbn [bind c_membership wiring_of]. rewrite (proj2 (denom_is dn) Hs). cbn [bind]. rewrite owner_is, (proj2 (owner_valid owner) Ho) by exact Hu. cbn [bind].
      pose proof (find_first dn coins) as F. destruct (find _ coins) as [(dn', n)|]; [|reflexivity]. destruct F as (-> & l1 & l2 & -> & _).
      destruct Hn. rewrite map_app. apply in_or_app. right. left. reflexivity.
    + rewrite Ht, HC. cbn [bind c_membership wiring_of]. rewrite (proj2 (denom_is dn) Hs). cbn [bind]. rewrite owner_is, (proj2 (owner_valid owner) Ho) by exact Hu. cbn [bind].
      pose proof (find_first dn (before ++ (dn, n) :: aft)) as F. destruct (find (fun x : coin => fst x =? dn) (before ++ (dn, n) :: aft)) as [(dn', n')|].
      * destruct F as (-> & l1 & l2 & E & F). rewrite (first_unique _ _ _ _ _ _ _ E Hn F). reflexivity.
      * destruct F. rewrite map_app. apply in_or_app. right. left. reflexivity.
Qed.

Lemma worth_is d : match d with Some d => deposit_amount d | None => 0 end = worth d.
Proof. destruct d as [[o [| |]]|]; reflexivity. Qed.

(** what the controller sets up and asks the governance contract *)
Definition quorum_for (t : proposal_type) : N :=
  match t, ct_council (w_ctl w) with Council, Some c => cc_quorum c | _, _ => gc_quorum (ct_config (w_ctl w)) end.
Definition threshold_for (t : proposal_type) : N :=
  match t, ct_council (w_ctl w) with Council, Some c => cc_threshold c | _, _ => gc_threshold (ct_config (w_ctl w)) end.
Definition poll_params (t : proposal_type) (now : N) (u : addr) : create_params :=
  mk_create u 0 (now + span w) (quorum_for t) (threshold_for t) (gc_veto_threshold (ct_config (w_ctl w))).
Definition poll_order t now u : cosmos_msg := WasmExecute (a_governance A) (ToGovernance (GCreatePoll (poll_params t now u))) [].
Definition setting_up (t : proposal_type) (d : option deposit) (actions : list proposal_action) : ctl :=
  with_creating (w_ctl w) (Some (mk_info t None None d actions)).

Lemma ends_is now v : ts_plus_seconds now (gc_vote_duration (ct_config (w_ctl w))) = Ok v <-> v = now + span w /\ now + span w < 2 ^ 64.
Proof.
  unfold ts_plus_seconds, ts_plus_nanos, u64_mul, uint64_add, span. change (10 ^ 9) with NANOS. change (2 ^ 64) with M64.
  destruct (N.ltb_spec (now + gc_vote_duration (ct_config (w_ctl w)) * NANOS mod M64) M64) as [H|H].
  - split; [intros E; injection E as <-; auto|intros (-> & _); reflexivity].
  - split; [discriminate|]. intros (_ & K). lia.
Qed.

Lemma order_is g e actions d t u r : gc_vote_duration g = gc_vote_duration (ct_config (w_ctl w)) ->
  new_poll_msg (ctl_oracle_of Out A w) (w_ctl w) e g actions d t u = Ok r <->
  e_time e + span w < 2 ^ 64 /\ r = (setting_up t d actions, [mk_sub (WasmExecute (a_governance A) (ToGovernance (GCreatePoll
     (mk_create u 0 (e_time e + span w) (gc_quorum g) (gc_threshold g) (gc_veto_threshold g)))) []) (ReplySuccess 1)]).
Proof.
  intros Eg. unfold new_poll_msg. rewrite Eg. split.
  - intros H. apply bind_ok in H. destruct H as (v & H1 & H). apply ends_is in H1. destruct H1 as (-> & H1). split; [exact H1|].
    rewrite HC in H. cbn [bind] in H. injection H as <-. reflexivity.
  - intros (H1 & ->). rewrite (proj2 (ends_is (e_time e) (e_time e + span w)) (conj eq_refl H1)). cbn [bind]. rewrite HC. reflexivity.
Qed.

Definition deserves (u : addr) (d : option deposit) : Prop :=
  match gc_minimum_deposit (ct_config (w_ctl w)) with None => vote_weight w General u <> 0 | Some r => r <= worth d end.
Definition in_order (actions : list proposal_action) : Prop :=
  (length actions <= 10)%nat /\ Forall (well_formed (en_type (w_enterprise w)) (en_version (w_enterprise w)) (ct_config (w_ctl w))) actions.

Lemma order_valid actions x : validate_actions (ctl_oracle_of Out A w) (w_ctl w) (en_type (w_enterprise w)) actions = Ok x <-> in_order actions.
Proof. destruct x. exact (actions_valid _ _ _ _ _ version_is). Qed.

Lemma unrestricted_is u x : unrestricted (ctl_oracle_of Out A w) u = Ok x <-> restricted_by Out A w (a_enterprise A) u = Ok false.
Proof.
  unfold unrestricted. rewrite restricted_is. destruct x. split.
  - intros H. apply bind_ok in H. destruct H as ([|] & H1 & H); [discriminate|]. exact H1.
  - intros ->. reflexivity.
Qed.

Lemma create_is e actions d u r : u <> 0 -> create_proposal (ctl_oracle_of Out A w) (w_ctl w) e actions d u = Ok r <->
  (restricted_by Out A w (a_enterprise A) u = Ok false /\ deserves u d /\ in_order actions /\ e_time e + span w < 2 ^ 64) /\
  r = (setting_up General d actions, [mk_sub (poll_order General (e_time e) u) (ReplySuccess 1)]).
Proof.
  intros Hu. unfold create_proposal. rewrite (general_weight Out A w att u HC Hu). rewrite type_is.
  assert (S : forall x, sufficient_deposit (ct_config (w_ctl w)) d (vote_weight w General u) = Ok x <-> deserves u d).
  { intros []. unfold sufficient_deposit, deserves. destruct (gc_minimum_deposit (ct_config (w_ctl w))).
    - rewrite worth_is. rewrite <- N.leb_le. destruct (_ <=? _); split; intros K; try discriminate; reflexivity.
    - destruct (N.eqb_spec (vote_weight w General u) 0); split; intros K; try discriminate; try contradiction; [exact n|reflexivity]. }
  split.
  - intros H. apply bind_ok in H. destruct H as (x1 & H1 & H). apply unrestricted_is in H1. cbn [bind] in H. apply bind_ok in H. destruct H as (x2 & H2 & H). apply S in H2.
    apply bind_ok in H. destruct H as (x3 & H3 & H). apply order_valid in H3. apply order_is in H; [|reflexivity]. destruct H as (H4 & ->). split; [auto|reflexivity].
  - intros ((H1 & H2 & H3 & H4) & ->). rewrite (proj2 (unrestricted_is u tt) H1). cbn [bind]. rewrite (proj2 (S tt) H2). cbn [bind].
    rewrite (proj2 (order_valid actions tt) H3). cbn [bind]. apply order_is; [reflexivity|]. split; [exact H4|reflexivity].
Qed.

Lemma allowed_is c actions : forallb (fun a => existsb (action_type_eqb (action_type_of a)) (cc_allowed c)) actions = true <->
  Forall (fun a => In (action_type_of a) (cc_allowed c)) actions.
Proof.
  rewrite forallb_forall, Forall_forall. split; intros H a Ha; specialize (H a Ha).
  - apply existsb_exists in H. destruct H as (b & Hb & E). apply action_type_eqb_eq in E. rewrite E. exact Hb.
  - apply existsb_exists. exists (action_type_of a). split; [exact H|]. apply action_type_eqb_eq. reflexivity.
Qed.

(** everything but the vote's end being later than now *)
Definition allowed (y : way) (now : N) (u : addr) (actions : list proposal_action) (d : option deposit) : Prop :=
  restricted_by Out A w (a_enterprise A) u = Ok false /\ in_order actions /\ now + span w < 2 ^ 64 /\ brings w u y d /\ (kind_of y = General -> deserves u d) /\
  (kind_of y = Council -> exists c, ct_council (w_ctl w) = Some c /\ vote_weight w Council u <> 0 /\ Forall (fun a => In (action_type_of a) (cc_allowed c)) actions).

Lemma creates_is e y u actions r : u <> 0 ->
  ctl_execute (ctl_oracle_of Out A w) (a_controller A) (w_ctl w) e (caller y u) (coins_of y)
    (match y with WithCoins owner _ => CCreateProposal actions owner | WithTokens _ n owner => CReceive u n (Some (actions, owner)) | InCouncil _ => CCreateCouncilProposal actions end) = Ok r <->
  exists d, allowed y (e_time e) u actions d /\ r = (setting_up (kind_of y) d actions, [mk_sub (poll_order (kind_of y) (e_time e) u) (ReplySuccess 1)]).
Proof.
  intros Hu. destruct y as [owner coins|t n owner|coins]; cbn [caller coins_of kind_of ctl_execute].
  - unfold create_proposal_coins. rewrite type_is. cbn [bind]. fold (found u owner coins). split.
    + intros H. apply bind_ok in H. destruct H as (d & H1 & H). apply (found_is u owner coins d Hu) in H1. apply create_is in H; [|exact Hu].
      destruct H as ((H2 & H3 & H4 & H5) & ->). exists d. split; [|reflexivity].
      split; [exact H2|]. split; [exact H4|]. split; [exact H5|]. split; [exact H1|]. split; [intros _; exact H3|intros K; discriminate K].
    + intros (d & (H1 & H2 & H3 & H4 & H5 & _) & ->). rewrite (proj2 (found_is u owner coins d Hu) H4). cbn [bind]. apply create_is; [exact Hu|]. split; [|reflexivity]. auto.
  - unfold create_proposal_cw20. rewrite type_is. cbn [bind]. rewrite HC. cbn [bind c_membership wiring_of]. split.
    + intros H. apply bind_ok in H. destruct H as (tk & H1 & H). apply token_is in H1. apply bind_ok in H. destruct H as (x & H2 & H). apply guard_ok in H2. apply andb_prop in H2.
      destruct H2 as (H2 & H2'). apply N.eqb_eq in H2'. subst tk. unfold addr_validate in H at 1. rewrite (proj2 (N.eqb_neq _ _) Hu) in H. cbn [bind] in H.
      rewrite owner_is in H by exact Hu. destruct (match owner with Some a => a =? 0 | None => false end) eqn:Eo; [discriminate|]. apply owner_valid in Eo. cbn [bind] in H.
      apply create_is in H; [|exact Hu]. destruct H as ((H3 & H4 & H5 & H6) & ->). eexists. split; [|reflexivity].
      split; [exact H3|]. split; [exact H5|]. split; [exact H6|]. split; [|split; [intros _; exact H4|intros K; discriminate K]].
      apply br_tokens; [|exact H1|exact Eo]. destruct (en_type (w_enterprise w)); try discriminate. reflexivity.
    + intros (d & (H1 & H2 & H3 & H4 & H5 & _) & ->). inversion H4 as [| | |? ? ? Ht Hs Ho|]; subst. rewrite (proj2 (token_is t) Hs). cbn [bind]. rewrite Ht, N.eqb_refl.
      cbn [dao_type_eqb andb guard bind]. unfold addr_validate at 1. rewrite (proj2 (N.eqb_neq _ _) Hu). cbn [bind].
      rewrite owner_is, (proj2 (owner_valid owner) Ho) by exact Hu. cbn [bind]. apply create_is; [exact Hu|]. split; [|reflexivity]. auto.
  - unfold create_council_proposal. split.
    + intros H. apply bind_ok in H. destruct H as (x1 & H1 & H). apply unrestricted_is in H1. apply bind_ok in H. destruct H as (c & H2 & H). apply ok_or_ok in H2.
      rewrite type_is in H. cbn [bind] in H. apply bind_ok in H. destruct H as (x3 & H3 & H). apply order_valid in H3.
      rewrite (council_weight_is Out A HA w att u HC Hu) in H. cbn [bind] in H. apply bind_ok in H. destruct H as (x4 & H4 & H). apply guard_ok, negb_true_iff, N.eqb_neq in H4.
      apply bind_ok in H. destruct H as (x5 & H5 & H). apply guard_ok, allowed_is in H5. cbv zeta in H. apply order_is in H; [|reflexivity]. destruct H as (H6 & ->).
      exists None. split.
      * split; [exact H1|]. split; [exact H3|]. split; [exact H6|]. split; [constructor|]. split; [intros K; discriminate K|]. intros _. exists c. auto.
      * unfold poll_order, poll_params, quorum_for, threshold_for. rewrite H2. reflexivity.
    + intros (d & (H1 & H2 & H3 & H4 & _ & H6) & ->). inversion H4; subst. destruct (H6 eq_refl) as (c & Hc & Hw & Hall).
      rewrite (proj2 (unrestricted_is u tt) H1), Hc. cbn [bind ok_or]. rewrite type_is. cbn [bind]. rewrite (proj2 (order_valid actions tt) H2). cbn [bind].
      rewrite (council_weight_is Out A HA w att u HC Hu). cbn [bind]. rewrite (proj2 (N.eqb_neq _ _) Hw), (proj2 (allowed_is c actions) Hall). cbn [negb guard bind]. cbv zeta.
      apply order_is; [reflexivity|]. split; [exact H3|]. unfold poll_order, poll_params, quorum_for, threshold_for. rewrite Hc. reflexivity.
Qed.
End Oracle.

(** the message *)
Definition call_of (y : way) (u : addr) (actions : list proposal_action) : controller_msg :=
  match y with WithCoins owner _ => CCreateProposal actions owner | WithTokens _ n owner => CReceive u n (Some (actions, owner)) | InCouncil _ => CCreateCouncilProposal actions end.

Lemma gov_opens n (w : world X) e c : wired A w -> cp_threshold c <= DEC -> e_time e < cp_ends_at c -> cp_proposer c <> 0 ->
  g_count (w_gov w) + 1 < 2 ^ 64 ->
  go Out A (S (S n)) w e (JMsg (a_controller A) (WasmExecute (a_governance A) (ToGovernance (GCreatePoll c)) [])) =
  Ok (set_gov (note w (a_controller A) (WasmExecute (a_governance A) (ToGovernance (GCreatePoll c)) []))
        (mk_gov (g_admin (w_gov w)) (g_count (w_gov w) + 1)
           (oset (g_polls (w_gov w)) (g_count (w_gov w) + 1)
              (mk_poll (g_count (w_gov w) + 1) (cp_proposer c) (cp_deposit c) (InProgress (cp_ends_at c)) (e_time e) (cp_ends_at c) (cp_quorum c) (cp_threshold c) (cp_veto_threshold c) oempty))
           (g_votes (w_gov w))), Some (g_count (w_gov w) + 1)).
Proof.
  intros W Ht He Hu Hc. rewrite go_call, HF. cbn [bind]. unfold handle. rewrite (proj2 (N.eqb_neq _ _)) by (apply gov_not_ctl; exact HA). rewrite N.eqb_refl.
  cbn [w_gov set_ext note]. unfold gov_execute. rewrite (wi_admin _ _ W), N.eqb_refl. cbn [guard bind]. unfold create_poll, validate_create_poll.
  rewrite (proj2 (N.leb_le _ _) Ht). cbn [guard bind]. rewrite (proj2 (N.leb_gt _ _)) by exact He. cbn [negb guard bind]. unfold addr_validate.
  rewrite (proj2 (N.eqb_neq _ _) Hu). cbn [bind]. unfold u64_add. rewrite N.mod_small by exact Hc. rewrite go_none. cbn [bind].
  rewrite (wi_admin _ _ W). reflexivity.
Qed.

Lemma created_poll g e c r : create_poll g e c = Ok r -> e_time e < cp_ends_at c.
Proof.
  unfold create_poll, validate_create_poll. intros H. apply bind_ok in H. destruct H as (x & H1 & _). apply bind_ok in H1. destruct H1 as (x1 & _ & H1).
  apply guard_ok, negb_true_iff, N.leb_gt in H1. exact H1.
Qed.

Lemma paid_wired (w : world X) s m x : wired A w -> wired A (set_ext (note w s m) x).
Proof. intros W. apply (start_wired A w s m x W). Qed.

(** a proposal that is accepted was in order *)
Lemma proposal_needs gas (w : world X) e y u actions r : wired A w -> u <> 0 ->
  go Out A gas w e (JMsg (caller y u) (proposing A y u actions)) = Ok r ->
  exists x, x_pay Out (w_ext w) (caller y u) (a_controller A) (coins_of y) = Ok x /\ can_propose Out A (set_ext w x) y (e_time e) u actions.
Proof.
  intros W Hu H. destruct gas as [|gas]; [discriminate|]. unfold proposing in H. fold (call_of y u actions) in H. rewrite go_call in H.
  apply bind_ok in H. destruct H as (x & Hx & H). exists x. split; [exact Hx|].
  set (m0 := WasmExecute (a_controller A) (ToController (call_of y u actions)) (coins_of y)) in *.
  pose proof (paid_wired w (caller y u) m0 x W) as W0. set (w0 := set_ext (note w (caller y u) m0) x) in *.
  destruct (wired_components Out A w0 W0) as (att & HC).
  apply bind_ok in H. destruct H as (((w1 & subs) & d) & H1 & H). apply bind_ok in H. destruct H as ((w2 & d2) & H2 & _).
  unfold handle in H1. rewrite N.eqb_refl in H1. apply bind_ok in H1. destruct H1 as ((c & subs') & H1 & E). inversion E; subst w1 subs' d. clear E.
  unfold call_of in H1. apply (creates_is w0 W0 att HC e y u actions _ Hu) in H1. destruct H1 as (dep & (K1 & (K2 & K2') & K3 & K4 & K5 & K6) & E).
  injection E as -> ->.
  assert (K7 : 0 < span w0).
  { apply go_cons in H2. destruct H2 as (n & -> & [(w3 & d3 & H2 & _)|(i & w3 & more & w4 & d4 & _ & F & _)]); [|discriminate F].
    cbn [sm_msg] in H2. unfold poll_order in H2. destruct n as [|n]; [discriminate|]. rewrite go_call, HF in H2. cbn [bind] in H2.
    apply bind_ok in H2. destruct H2 as (((w4 & subs) & d) & H2 & _). unfold handle in H2.
    rewrite (proj2 (N.eqb_neq _ _)) in H2 by (apply gov_not_ctl; exact HA). rewrite N.eqb_refl in H2.
    apply bind_ok in H2. destruct H2 as ((g & dg) & H2 & _). unfold gov_execute in H2. apply bind_ok in H2. destruct H2 as (_ & _ & H2).
    apply bind_ok in H2. destruct H2 as (gp & H2 & _). apply created_poll in H2. unfold poll_params in H2. cbn [cp_ends_at] in H2. lia. }
  split; [exact K1|]. split; [exact K2|]. split; [exact K2'|]. split; [exact K7|]. split; [exact K3|]. split; [exists dep; split; [exact (brings_same _ w0 (set_ext w x) _ _ _ eq_refl eq_refl K4)|exact K5]|exact K6].
Qed.

Lemma sane_threshold (w : world X) t : sane_rules (w_ctl w) -> threshold_for w t <= DEC.
Proof.
  intros ((ty & (_ & _ & (_ & H) & _)) & HK). unfold threshold_for. destruct t; [exact H|]. destruct (ct_council (w_ctl w)) as [c|] eqn:E; [|exact H].
  exact (proj2 (proj2 (proj1 (HK c eq_refl)))).
Qed.

Lemma proposal_runs n (w : world X) e y u actions x : wired A w -> sane_rules (w_ctl w) -> u <> 0 -> g_count (w_gov w) + 1 < 2 ^ 64 ->
  x_pay Out (w_ext w) (caller y u) (a_controller A) (coins_of y) = Ok x -> can_propose Out A (set_ext w x) y (e_time e) u actions ->
  exists w', go Out A (S (S (S (S n)))) w e (JMsg (caller y u) (proposing A y u actions)) = Ok (w', None) /\ proposed A y w x w' (e_time e) u actions.
Proof.
  intros W HS Hu Hn Hx (K1 & K2 & K3 & K4 & K5 & (dep & K6 & K7) & K8).
  unfold proposing. fold (call_of y u actions). rewrite go_call, Hx. cbn [bind].
  set (m0 := WasmExecute (a_controller A) (ToController (call_of y u actions)) (coins_of y)) in *.
  pose proof (paid_wired w (caller y u) m0 x W) as W0. set (w0 := set_ext (note w (caller y u) m0) x) in *.
  destruct (wired_components Out A w0 W0) as (att & HC).
  assert (E1 : ctl_execute (ctl_oracle_of Out A w0) (a_controller A) (w_ctl w0) e (caller y u) (coins_of y) (call_of y u actions) =
    Ok (setting_up w0 (kind_of y) dep actions, [mk_sub (poll_order w0 (kind_of y) (e_time e) u) (ReplySuccess 1)])).
  { apply (creates_is w0 W0 att HC e y u actions _ Hu). exists dep. split; [|reflexivity].
    split; [exact K1|]. split; [split; [exact K2|exact K3]|]. split; [exact K5|]. split; [exact (brings_same _ (set_ext w x) w0 _ _ _ eq_refl eq_refl K6)|]. split; [exact K7|exact K8]. }
  unfold handle. rewrite N.eqb_refl, E1. cbn [bind]. set (w1 := set_ctl w0 (setting_up w0 (kind_of y) dep actions)).
  assert (W1 : wired A w1) by (destruct W0 as [a b c d f]; constructor; assumption).
  assert (E2 := gov_opens n w1 e (poll_params w0 (kind_of y) (e_time e) u) W1 (sane_threshold w (kind_of y) HS)). 
  cbn [cp_ends_at cp_proposer poll_params] in E2. change (span w0) with (span (set_ext w x)) in E2. specialize (E2 ltac:(lia) Hu Hn).
  unfold poll_order. rewrite (go_success _ _ _ _ _ _ _ _ _ _ E2).
  unfold on_reply. rewrite N.eqb_refl. unfold ctl_reply. cbn [N.eqb Pos.eqb ok_or bind]. cbn [w_ctl set_gov note]. unfold w1 at 1. cbn [w_ctl set_ctl setting_up with_creating ct_creating ok_or bind].
  cbn [bind]. rewrite go_none. cbn [bind]. rewrite go_none. cbn [bind].
  eexists. split; [reflexivity|]. constructor.
  - cbn [w_gov set_ctl set_gov g_polls]. rewrite oget_oset_eq. reflexivity.
  - intros i Hi. cbn [w_gov set_ctl set_gov g_polls]. apply oget_oset_ne. intros E. apply Hi. symmetry. exact E.
  - repeat split.
  - exists dep. split; [exact K6|]. cbn [w_ctl set_ctl with_proposals ct_proposals]. apply oget_oset_eq.
  - intros i Hi. cbn [w_ctl set_ctl with_proposals ct_proposals]. apply oget_oset_ne. intros E. apply Hi. symmetry. exact E.
  - repeat split.
  - repeat split.
  - eexists. reflexivity.
Qed.
End P.

(** A proposal can be made exactly when it is in order: nothing else in the DAO's life can prevent it. *)
Lemma proposing_exact X (Out : outside X) A w0 ts w e gas y u actions :
  new_dao A w0 -> free_calls Out -> w = world_run Out A w0 ts -> w_upgraded w = false -> N.of_nat (length (w_log w)) + 1 < 2 ^ 64 ->
  u <> 0 -> (4 <= gas)%nat ->
  (exists r, go Out A gas w e (JMsg (caller y u) (proposing A y u actions)) = Ok r) <->
  exists x, x_pay Out (w_ext w) (caller y u) (a_controller A) (coins_of y) = Ok x /\ can_propose Out A (set_ext w x) y (e_time e) u actions.
Proof.
  intros N F -> U L Hu Hg. change (2 ^ 64) with M64 in L. assert (L2 : lasting (world_run Out A w0 ts)) by (split; [exact U|change (2 ^ 64) with M64; lia]).
  pose proof (run_wired X Out A w0 ts N L2) as W. pose proof (run_sane X Out A w0 ts N) as HS.
  split.
  - intros (r & H). exact (proposal_needs Out A (nd_addrs _ _ N) F gas _ e y u actions r W Hu H).
  - intros (x & Hx & HP). do 4 (destruct gas as [|gas]; [lia|]).
    destruct (proposal_runs Out A (nd_addrs _ _ N) F gas _ e y u actions x W HS Hu) as (w' & H & _); try assumption; [|eauto].
    pose proof (wi_count _ _ W) as C. unfold size in C. change (2 ^ 64) with M64. lia.
Qed.

(** ... and then the vote is open, under the next number and the rules in force, and nothing else changes. *)
Lemma proposing_makes X (Out : outside X) A w0 ts w e gas y u actions w' d :
  new_dao A w0 -> free_calls Out -> w = world_run Out A w0 ts -> w_upgraded w = false -> N.of_nat (length (w_log w)) + 1 < 2 ^ 64 ->
  u <> 0 -> (4 <= gas)%nat -> go Out A gas w e (JMsg (caller y u) (proposing A y u actions)) = Ok (w', d) ->
  d = None /\ exists x, x_pay Out (w_ext w) (caller y u) (a_controller A) (coins_of y) = Ok x /\ proposed A y w x w' (e_time e) u actions.
Proof.
  intros N F -> U L Hu Hg H. change (2 ^ 64) with M64 in L. assert (L2 : lasting (world_run Out A w0 ts)) by (split; [exact U|change (2 ^ 64) with M64; lia]).
  pose proof (run_wired X Out A w0 ts N L2) as W. pose proof (run_sane X Out A w0 ts N) as HS.
  destruct (proposal_needs Out A (nd_addrs _ _ N) F gas _ e y u actions _ W Hu H) as (x & Hx & HP). do 4 (destruct gas as [|gas]; [lia|]).
  destruct (proposal_runs Out A (nd_addrs _ _ N) F gas _ e y u actions x W HS Hu) as (w2 & H2 & H3); try assumption.
  - pose proof (wi_count _ _ W) as C. unfold size in C. change (2 ^ 64) with M64. lia.
  - rewrite H in H2. injection H2 as <- ->. split; [reflexivity|]. exists x. split; [exact Hx|exact H3].
Qed.

(** As long as that moment exists, the vote lasts as long as configured. *)
Lemma configured_span X (Out : outside X) A w0 ts w now :
  new_dao A w0 -> w = world_run Out A w0 ts -> now + gc_vote_duration (ct_config (w_ctl w)) * 10 ^ 9 < 2 ^ 64 ->
  0 < span w /\ span w = gc_vote_duration (ct_config (w_ctl w)) * 10 ^ 9.
Proof.
  intros N -> L. pose proof (run_sane X Out A w0 ts N) as ((t & (H & _)) & _). unfold span. change (2 ^ 64) with M64 in *. change (10 ^ 9) with NANOS in *.
  rewrite N.mod_small by lia. split; [|reflexivity]. apply N.mul_pos_pos; [exact H|reflexivity].
Qed.
