(** Whole histories of a DAO. *)
From Coq Require Import Permutation.
From Verif Require Import Base OMap OMapLemmas Assets PollModel PollSpec PollProofs PollFacts FundsModel MemberModel MemberSpec
  MemberProofs MemberFacts Msgs ControllerModel ControllerSpec ControllerProofs ControllerFacts TreasuryModel EnterpriseModel
  EnterpriseSpec EnterpriseFacts OutpostsModel WorldModel WorldSpec WorldMember WorldProofs.

Section R.
Context {X : Type}.
Variable Out : outside X.
Variable A : addrs.
Hypothesis HA : NoDup (dao_addrs A).

Local Notation world := (world X).
Local Notation go := (go Out A).
Local Notation run := (world_run Out A).
Local Notation step := (world_step Out A).
Local Notation ctl_addr := (a_controller A).

Lemma dao_signer s : is_dao A s = false -> s <> ctl_addr /\ s <> a_membership A.
Proof.
  intros H. split; intros ->; revert H; unfold is_dao, dao_addrs; cbn; rewrite N.eqb_refl, ?Bool.orb_true_r; discriminate.
Qed.

(** a transaction either leaves the world as it is, or delivers a message of an outsider *)
Lemma step_cases w t : step w t = w \/
  exists d, is_dao A (tx_signer t) = false /\ go (tx_gas t) w (tx_env t) (JMsg (tx_signer t) (tx_msg t)) = Ok (step w t, d).
Proof.
  unfold world_step. destruct (world_tx Out A w t) as [w'|x] eqn:E; [|left; reflexivity]. right.
  unfold world_tx in E. apply bind_ok in E. destruct E as (u & Hu & E). apply guard_ok in Hu.
  apply bind_ok in E. destruct E as ([w1 d] & Hg & E). injection E as <-. exists d.
  split; [destruct (is_dao A (tx_signer t)); [discriminate|reflexivity]|exact Hg].
Qed.

Lemma step_size w t : size w <= size (step w t).
Proof. destruct (step_cases w t) as [->|(d & _ & H)]; [lia|]. eapply go_size. exact H. Qed.
Lemma run_size ts : forall w, size w <= size (run w ts).
Proof.
  induction ts as [|t ts IH]; intros w; [cbn; lia|]. change (run w (t :: ts)) with (run (step w t) ts).
  pose proof (IH (step w t)). pose proof (step_size w t). lia.
Qed.

Lemma run_ahead ts : forall w, wired A w -> size (run w ts) < M64 ->
  wired A (run w ts) /\ ahead w (run w ts) /\ (counted A w -> counted A (run w ts)).
Proof.
  induction ts as [|t ts IH]; intros w HW HS; [split; [exact HW|]; split; [apply ahead_refl|auto]|].
  change (run w (t :: ts)) with (run (step w t) ts) in *. pose proof (run_size ts (step w t)) as S1.
  destruct (step_cases w t) as [E|(d & Hd & H)]; [rewrite E in *; apply IH; assumption|].
  assert (H1 : wired A (step w t) /\ kept w (step w t)) by (eapply layer1; [exact HA|exact H|exact HW|exact I|lia]).
  destruct H1 as (W1 & K1).
  assert (A1 : ahead w (step w t)) by (split; [exact K1|eapply go_log; exact H]).
  destruct (IH _ W1 HS) as (W2 & A2 & C2). split; [exact W2|]. split; [exact (ahead_trans _ _ _ A1 A2)|].
  intros HC. apply C2. eapply layer1b; [exact HA|exact H|exact HW|exact I|lia|exact HC].
Qed.

Lemma later_started g t t' : t <= t' -> started_by g t -> started_by g t'.
Proof. intros L H id p Hp. specialize (H id p Hp). lia. Qed.

Lemma later_core now now' (w : world) : now <= now' -> core A now w -> core A now' w.
Proof. intros L C. destruct C. split; try assumption. eapply later_started; eassumption. Qed.

Lemma later_votes now now' (w : world) : now <= now' -> votes_current w now -> votes_current w now'.
Proof.
  intros L V id u v (p & pl & ends & H1 & H2 & H3 & H4 & H5) Hv. apply (V id u v); [|exact Hv].
  exists p, pl, ends. repeat split; try assumption. lia.
Qed.

Definition last_from (now : N) (ts : list tx) : N := fold_left (fun _ t => e_time (tx_env t)) ts now.

Lemma run_core ts : forall now w, core A now w -> votes_current w now -> timely now ts -> size (run w ts) < M64 -> calm A (run w ts) ->
  core A (last_from now ts) (run w ts) /\ votes_current (run w ts) (last_from now ts) /\ (thrifty A (run w ts) -> bal A w [] (run w ts)).
Proof.
  induction ts as [|t ts IH]; intros now w C V T HS HC.
  - split; [exact C|]. split; [exact V|]. intros _ x. rewrite cn_nil. cbn [world_run fold_left]. lia.
  - change (run w (t :: ts)) with (run (step w t) ts) in *. destruct T as (T1 & T2).
    change (last_from now (t :: ts)) with (last_from (e_time (tx_env t)) ts).
    apply (later_core _ _ _ T1) in C. apply (later_votes _ _ _ T1) in V.
    pose proof (run_size ts (step w t)) as S1.
    destruct (step_cases w t) as [E|(d & Hd & H)]; [rewrite E in *; exact (IH _ _ C V T2 HS HC)|].
    assert (W1 : wired A (step w t)) by (eapply layer1; [exact HA|exact H|apply C|exact I|lia]).
    destruct (run_ahead ts _ W1 HS) as (_ & A2 & _).
    destruct (dao_signer _ Hd) as (N1 & N2).
    assert (J : jok A w (JMsg (tx_signer t) (tx_msg t))) by (split; intros E; contradiction).
    destruct (layer2 Out A HA _ _ _ _ _ _ H C V J ltac:(lia) (calm_back _ _ _ A2 HC)) as (C1 & V1 & B1).
    destruct (IH _ _ C1 V1 T2 HS HC) as (C2 & V2 & B2). split; [exact C2|]. split; [exact V2|].
    intros TH. specialize (B1 (thrifty_back _ _ _ A2 TH)). specialize (B2 TH).
    assert (E : outflow A (JMsg (tx_signer t) (tx_msg t)) = []).
    { cbn [outflow]. apply N.eqb_neq in N1. rewrite N1. reflexivity. }
    rewrite E in B1. exact (bal_trans _ _ _ _ [] [] B1 B2).
Qed.

(** * A new DAO *)

Lemma instantiate_fresh e en t g council treasuries s : ctl_instantiate e en t g council [] treasuries = Ok s ->
  ct_enterprise s = en /\ ct_proposals s = oempty.
Proof.
  unfold ctl_instantiate. intros H. apply bind_ok in H. destruct H as (a & Ha & H). apply addr_validate_ok in Ha. destruct Ha as (-> & _).
  repeat (apply bind_ok in H; destruct H as (? & ? & H)). inversion H; subst. cbn. auto.
Qed.

Lemma new_records (w : world) : new_dao A w -> ct_enterprise (w_ctl w) = a_enterprise A /\ ct_proposals (w_ctl w) = oempty.
Proof. intros N. destruct (nd_controller _ _ N) as (e & t & g & c & tr & H). exact (instantiate_fresh _ _ _ _ _ _ _ H). Qed.

Lemma new_wired (w : world) : new_dao A w -> wired A w.
Proof.
  intros N. destruct (new_records w N) as (E1 & E2). pose proof (nd_governance _ _ N) as E3.
  split.
  - split; [exact (nd_enterprise _ _ N)|exact (nd_wiring _ _ N)].
  - exact E1.
  - rewrite E3. reflexivity.
  - rewrite E2. intros id p H. rewrite oget_empty in H. discriminate.
  - rewrite E3. cbn. lia.
Qed.

Lemma new_counted (w : world) : new_dao A w -> counted A w.
Proof.
  intros N id. destruct (new_records w N) as (_ & E2). unfold executions, marked. rewrite (nd_log _ _ N), E2, oget_empty. reflexivity.
Qed.

Lemma new_core (w : world) : new_dao A w -> core A 0 w.
Proof.
  intros N. pose proof (new_wired w N) as W. destruct (new_records w N) as (E1 & E2). pose proof (nd_governance _ _ N) as E3. pose proof (nd_log _ _ N) as E4.
  split.
  - exact W.
  - exact (nd_hooks _ _ N).
  - exact (nd_member_of _ _ N).
  - destruct (nd_membership _ _ N) as (e & i & H). exact (init_small _ _ _ H).
  - destruct (nd_council _ _ N) as (e & i & H). exact (init_small _ _ _ H).
  - rewrite E3. apply inv_init.
  - rewrite E3. intros id p H. cbn in H. rewrite oget_empty in H. discriminate.
  - intros id Ha. unfold acted in Ha. rewrite E4 in Ha. destruct Ha.
  - rewrite E4. intros s id c [].
  - intros id l1 l2 E. rewrite E4 in E. destruct l1; discriminate.
  - rewrite E2. intros id p b H. rewrite oget_empty in H. discriminate.
  - rewrite E2. intros id p H. rewrite oget_empty in H. discriminate.
  - rewrite E2. intros id p H. rewrite oget_empty in H. discriminate.
Qed.

Lemma new_votes (w : world) : new_dao A w -> votes_current w 0.
Proof.
  intros N id u v (p & pl & ends & H & _) _. destruct (new_records w N) as (_ & E2). rewrite E2, oget_empty in H. discriminate.
Qed.

End R.

(** * Sums over distinct keys *)

Lemma distinct_sum (m : omap N) : forall ks, NoDup ks -> lsum (ogetN m) ks <= osum (fun _ x => x) m.
Proof.
  intros ks. revert m. induction ks as [|k ks IH]; intros m H; [cbn; lia|]. inversion H; subst. rewrite lsum_cons.
  specialize (IH (odel m k) H3). pose proof (osum_odel (fun _ x : N => x) m k) as E. rewrite oval_ogetN in E.
  assert (E2 : lsum (ogetN (odel m k)) ks = lsum (ogetN m) ks).
  { apply lsum_ext_in. intros a Ha. rewrite ogetN_odel. destruct (N.eqb_spec k a) as [->|_]; [contradiction|reflexivity]. }
  rewrite E2 in IH. lia.
Qed.

Lemma votes_below (g : gov) id (W : omap N) :
  (forall u v, get_vote g u id = Some v -> v_amount v = ogetN W u) -> lsum v_amount (recorded_votes g id) <= osum (fun _ x => x) W.
Proof.
  intros H. rewrite recorded_total. unfold total_sum, osum at 1.
  etransitivity; [|apply (distinct_sum W (okeys (g_votes g)) (okeys_NoDup _))].
  unfold okeys. rewrite lsum_map. apply lsum_le_in. intros [u m] Hin. cbn [fst snd].
  destruct (oget m id) as [v|] eqn:E; [|apply N.le_0_l].
  assert (G : get_vote g u id = Some v). { unfold get_vote, votes_of. apply oget_In in Hin. rewrite Hin. exact E. }
  rewrite (H _ _ G). lia.
Qed.
