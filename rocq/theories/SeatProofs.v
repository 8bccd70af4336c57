(** What votes count follows the delivered messages. *)
From Verif Require Import Base OMap OMapLemmas Assets PollModel PollSpec PollProofs PollFacts FundsModel MemberModel MemberSpec Msgs
  ControllerModel ControllerSpec ControllerProofs ControllerFacts TreasuryModel EnterpriseModel OutpostsModel WorldModel WorldSpec WorldProofs WorldRun
  LiftFacts PurseSpec BallotSpec BallotProofs RecountSpec RecountFacts AccessProofs SeatSpec.

(** * The governance contract *)

Definition amounts (g : gov) (u id : N) : option N := option_map v_amount (get_vote g u id).
Definition running (g : gov) (e : env) (id : N) : Prop := exists pl ends, oget (g_polls g) id = Some pl /\ p_status pl = InProgress ends /\ e_time e < ends.

Lemma cast_seats g e id o voter n g' : cast_vote g e id o voter n = Ok g' ->
  g_count g' = g_count g /\ id <= g_count g /\ (forall i, running g' e i <-> running g e i) /\
  (forall u i, get_vote g' u i = if (voter =? u) && (id =? i) then Some (mk_vote id voter (outcome_u8 o) n) else get_vote g u i).
Proof.
  intros H. apply cast_vote_ok in H. destruct H as (p & _ & _ & L & Hp & _ & _ & ->). unfold cast_result. split; [reflexivity|]. split; [exact L|]. split.
  - intros i. unfold running, set_poll, set_vote. cbn [g_polls]. split; intros (pl & ends & H1 & H2 & H3).
    + rewrite oget_oset in H1. destruct (N.eqb_spec id i) as [<-|]; [|eauto]. injection H1 as <-. exists p, ends. auto.
    + destruct (N.eqb_spec id i) as [<-|NE].
      * assert (pl = p) as -> by congruence. eexists _, ends. rewrite oget_oset, N.eqb_refl. split; [reflexivity|]. auto.
      * exists pl, ends. rewrite oget_oset. apply N.eqb_neq in NE. unfold addr in *. rewrite NE. auto.
  - intros u i. rewrite get_vote_set_poll, get_set_vote. reflexivity.
Qed.

Lemma loop_seats e voter n l : forall g g', fold_res (update_vote e voter n) g l = Ok g' ->
  g_count g' = g_count g /\ (forall i, running g' e i <-> running g e i) /\
  (forall u i, running g e i -> amounts g' u i = if (voter =? u) && existsb (fun v => v_poll v =? i) l then Some n else amounts g u i) /\
  (forall u i, existsb (fun v => v_poll v =? i) l = false -> get_vote g' u i = get_vote g u i) /\
  (forall u i, voter <> u -> get_vote g' u i = get_vote g u i).
Proof.
  induction l as [|v l IH]; intros g g' H; cbn [fold_res] in H.
  { injection H as <-. split; [reflexivity|]. split; [tauto|]. split; [intros; rewrite andb_false_r; reflexivity|]. auto. }
  apply bind_ok in H. destruct H as (g1 & H1 & H).
  assert (Q : g_count g1 = g_count g /\ (forall i, running g1 e i <-> running g e i) /\
    (forall u i, running g e i -> amounts g1 u i = if (voter =? u) && (v_poll v =? i) then Some n else amounts g u i) /\
    (forall u i, (v_poll v =? i) = false -> get_vote g1 u i = get_vote g u i) /\ (forall u i, voter <> u -> get_vote g1 u i = get_vote g u i)).
  { unfold update_vote in H1. apply bind_ok in H1. destruct H1 as (p & Hp & H1). apply ok_or_ok in Hp.
    assert (IDLE : ~ running g e (v_poll v) -> g1 = g -> g_count g1 = g_count g /\ (forall i, running g1 e i <-> running g e i) /\
      (forall u i, running g e i -> amounts g1 u i = if (voter =? u) && (v_poll v =? i) then Some n else amounts g u i) /\
      (forall u i, (v_poll v =? i) = false -> get_vote g1 u i = get_vote g u i) /\ (forall u i, voter <> u -> get_vote g1 u i = get_vote g u i)).
    { intros NR ->. split; [reflexivity|]. split; [tauto|]. split; [|auto]. intros u i R. destruct (N.eqb_spec (v_poll v) i) as [<-|]; [contradiction|]. rewrite andb_false_r. reflexivity. }
    destruct (p_status p) as [ends| |] eqn:Es.
    - destruct (e_time e <? ends) eqn:El.
      + apply bind_ok in H1. destruct H1 as (o & _ & H1). apply cast_seats in H1. destruct H1 as (C1 & _ & C2 & C3). split; [exact C1|]. split; [exact C2|].
        split; [|split].
        * intros u i _. unfold amounts. rewrite C3. destruct ((voter =? u) && (v_poll v =? i)); reflexivity.
        * intros u i E. rewrite C3, E, andb_false_r. reflexivity.
        * intros u i NE. rewrite C3. apply N.eqb_neq in NE. rewrite NE. reflexivity.
      + injection H1 as <-. apply IDLE; [|reflexivity]. intros (pl & en & R1 & R2 & R3). apply N.ltb_ge in El. assert (pl = p) as -> by congruence. rewrite Es in R2. injection R2 as ->. lia.
    - injection H1 as <-. apply IDLE; [|reflexivity]. intros (pl & en & R1 & R2 & R3). assert (pl = p) as -> by congruence. congruence.
    - injection H1 as <-. apply IDLE; [|reflexivity]. intros (pl & en & R1 & R2 & R3). assert (pl = p) as -> by congruence. congruence. }
  destruct Q as (Q1 & Q2 & Q3 & Q4 & Q5). destruct (IH _ _ H) as (I1 & I2 & I3 & I4 & I5). split; [congruence|]. split; [intros i; rewrite I2; apply Q2|]. split; [|split].
  - intros u i R. rewrite I3 by (apply Q2; exact R). cbn [existsb]. rewrite Q3 by exact R. destruct (voter =? u); [|reflexivity]. cbn [andb].
    destruct (existsb (fun v0 => v_poll v0 =? i) l); [rewrite orb_true_r; reflexivity|]. rewrite orb_false_r. reflexivity.
  - intros u i E. cbn [existsb] in E. apply orb_false_iff in E. destruct E as (E1 & E2). rewrite I4 by exact E2. apply Q4. exact E1.
  - intros u i NE. rewrite I5 by exact NE. apply Q5. exact NE.
Qed.

Lemma update_seats g e voter n g' : tidy g -> update_votes g e voter n = Ok g' ->
  g_count g' = g_count g /\ (forall i, running g' e i <-> running g e i) /\
  (forall u i, running g e i -> amounts g' u i = if voter =? u then option_map (fun _ => n) (amounts g u i) else amounts g u i) /\
  (forall u i, get_vote g u i = None -> get_vote g' u i = None).
Proof.
  intros HT H. unfold update_votes in H. apply bind_ok in H. destruct H as (vs & Hq & H).
  assert (HV : forall i, existsb (fun v => v_poll v =? i) vs = is_some (get_vote g voter i)).
  { intros i. destruct (get_vote g voter i) as [v|] eqn:G; cbn [is_some].
    - apply existsb_exists. exists v. destruct (HT _ _ _ G) as (-> & _). split; [|apply N.eqb_refl]. unfold query_voter in Hq. apply bind_ok in Hq. destruct Hq as (u & Hu & Hq).
      unfold addr_validate in Hu. destruct (voter =? 0); [discriminate|]. injection Hu as <-. injection Hq as <-. apply in_map_iff. exists (i, v). split; [reflexivity|].
      unfold orange. apply oget_In. exact G.
    - destruct (existsb (fun v => v_poll v =? i) vs) eqn:E; [|reflexivity]. apply existsb_exists in E. destruct E as (v & Hi & E). apply N.eqb_eq in E. subst i.
      rewrite (voter_votes _ _ _ _ HT Hq Hi) in G. discriminate. }
  destruct (loop_seats _ _ _ _ _ _ H) as (L1 & L2 & L3 & L4 & L5). split; [exact L1|]. split; [exact L2|]. split.
  - intros u i R. rewrite L3 by exact R. rewrite HV. destruct (N.eqb_spec voter u) as [->|]; [|reflexivity]. cbn [andb]. unfold amounts. destruct (get_vote g u i); reflexivity.
  - intros u i G. destruct (N.eq_dec voter u) as [->|NE]; [|rewrite L5; assumption]. rewrite L4; [exact G|]. rewrite HV, G. reflexivity.
Qed.

(** * What is recorded and what was delivered *)

Section S.
Variable A : addrs.
Variable m0 c0 : addr -> N.
Local Notation counts := (counts A m0 c0).

Record seated_so (g : gov) (e : env) (L : list (addr * cosmos_msg)) : Prop := {
  ss_tidy : tidy g;
  ss_open : forall u i, running g e i -> amounts g u i = counts L u i;
  ss_new : forall i, g_count g < i -> forall u, get_vote g u i = None /\ counts L u i = None
}.

Lemma told_gov u s gm : told A u (s, gov_msg_of A gm) = match gm with GUpdateVotes v n => if v =? u then Some n else None | _ => None end.
Proof. unfold told, gov_msg_of. cbn [snd]. destruct gm; try reflexivity. rewrite N.eqb_refl. reflexivity. Qed.

Lemma skip_counts L x u i : ballot A u i x = None -> told A u x = None -> counts (x :: L) u i = counts L u i.
Proof. intros H1 H2. cbn [SeatSpec.counts]. rewrite H1, H2. reflexivity. Qed.

Lemma seat_skip g e L x : seated_so g e L -> (forall u i, ballot A u i x = None) -> (forall u, told A u x = None) -> seated_so g e (x :: L).
Proof.
  intros [H1 H2 H3] B T. split; [exact H1| |].
  - intros u i R. rewrite skip_counts by auto. auto.
  - intros i L' u. rewrite skip_counts by auto. auto.
Qed.

Lemma seat_update g e L s v n g' x : seated_so g e L -> (forall u i, ballot A u i x = None) -> (forall u, told A u x = if v =? u then Some n else None) ->
  x = (s, snd x) -> update_votes g e v n = Ok g' -> seated_so g' e (x :: L).
Proof.
  intros [H1 H2 H3] B T _ H. destruct (update_seats _ _ _ _ _ H1 H) as (U1 & U2 & U3 & U4). split.
  - eapply update_choices; eassumption.
  - intros u i R. apply U2 in R. rewrite U3 by exact R. cbn [SeatSpec.counts]. rewrite B, T, H2 by exact R. destruct (v =? u); reflexivity.
  - intros i L' u. rewrite U1 in L'. destruct (H3 i L' u) as (G1 & G2). split; [apply U4; exact G1|]. cbn [SeatSpec.counts]. rewrite B, T, G2. destruct (v =? u); reflexivity.
Qed.

Lemma ballot_gov u i s gm : ballot A u i (s, gov_msg_of A gm) = None.
Proof. reflexivity. Qed.

Lemma seat_updates e changes : forall g g' L s, seated_so g e L -> updates e g changes = Ok g' ->
  seated_so g' e (map (fun gm => (s, gov_msg_of A gm)) (rev (map (fun ch => GUpdateVotes (wc_user ch) (wc_new ch)) changes)) ++ L).
Proof.
  induction changes as [|c l IH]; intros g g' L s HS H; unfold updates in *; cbn [fold_res] in H; [injection H as <-; exact HS|].
  apply bind_ok in H. destruct H as (g1 & H1 & H). cbn [map rev]. rewrite map_app, <- app_assoc. cbn [map app]. eapply IH; [|exact H].
  eapply seat_update; [exact HS|intros; apply ballot_gov| |reflexivity|exact H1]. intros u. exact (told_gov u s (GUpdateVotes _ _)).
Qed.

Lemma seat_end g e L id mx a b g' : seated_so g e L -> end_poll g e id mx a b = Ok g' -> seated_so g' e L.
Proof.
  intros [H1 H2 H3] H. apply end_poll_ok in H. destruct H as (p & Hp & -> & _). split; [exact H1| |exact H3].
  intros u i (pl & ends & R1 & R2 & R3). unfold set_poll in R1. cbn [g_polls] in R1. rewrite oget_oset in R1. destruct (N.eqb_spec id i) as [<-|].
  - injection R1 as <-. cbn [with_status p_status] in R2. unfold final_status in R2. destruct (negb (quorum_reached p (p_quorum p) mx)); [discriminate|].
    destruct (most_voted_over_threshold p) as [|o c|]; try discriminate. destruct (o =? outcome_u8 Yes); [discriminate|]. destruct (o =? outcome_u8 Veto); discriminate.
  - change (amounts (set_poll g id (with_status p (final_status p mx))) u i) with (amounts g u i). apply H2. exists pl, ends. auto.
Qed.

Lemma seat_create g e L c g' id : seated_so g e L -> g_count g + 1 < M64 -> create_poll g e c = Ok (g', id) -> seated_so g' e L.
Proof.
  intros [H1 H2 H3] HS H. unfold create_poll in H. apply bind_ok in H. destruct H as (? & _ & H). apply bind_ok in H. destruct H as (pr & _ & H).
  assert (E : u64_add (g_count g) 1 = g_count g + 1) by (unfold u64_add; apply N.mod_small; lia). rewrite E in H. injection H as <- <-. split; [exact H1| |].
  - intros u i (pl & ends & R1 & R2 & R3). cbn [g_polls] in R1. rewrite oget_oset in R1. destruct (N.eqb_spec (g_count g + 1) i) as [<-|].
    + destruct (H3 (g_count g + 1) ltac:(lia) u) as (G1 & G2). rewrite G2. unfold amounts. unfold get_vote, votes_of in *. cbn [g_votes]. rewrite G1. reflexivity.
    + change (amounts g u i = counts L u i). apply H2. exists pl, ends. auto.
  - cbn [g_count]. intros i L' u. apply (H3 i ltac:(lia) u).
Qed.

Lemma seat_cast g e L id o voter n g' x : seated_so g e L -> cast_vote g e id o voter n = Ok g' ->
  (forall u i, ballot A u i x = if (voter =? u) && (id =? i) then Some o else None) -> (forall u, told A u x = None) -> n = brings A m0 c0 voter L x ->
  seated_so g' e (x :: L).
Proof.
  intros [H1 H2 H3] H B T ->. pose proof (cast_choices _ _ _ _ _ _ _ H1 H) as (T1 & _). destruct (cast_seats _ _ _ _ _ _ _ H) as (U1 & U0 & U2 & U3). split; [exact T1| |].
  - intros u i R. apply U2 in R. cbn [SeatSpec.counts]. rewrite B, T. unfold amounts. rewrite U3. destruct ((voter =? u) && (id =? i)) eqn:E.
    + apply andb_true_iff in E. destruct E as (E & _). apply N.eqb_eq in E. subst u. reflexivity.
    + apply H2. exact R.
  - intros i L' u. rewrite U1 in L'. cbn [SeatSpec.counts]. rewrite B, T, U3. assert (NE : id <> i) by lia. apply N.eqb_neq in NE. rewrite NE, andb_false_r. apply H3. exact L'.
Qed.

End S.

(** * Weights *)

Section W.
Context {X : Type}.
Variable Out : outside X.
Variable A : addrs.
Variable m0 c0 : addr -> N.
Hypothesis HA : NoDup (dao_addrs A).

Local Notation world := (world X).
Local Notation go := (go Out A).
Local Notation counts := (counts A m0 c0).
Local Notation seated_so := (seated_so A m0 c0).

Definition weighed (w : world) : Prop := forall u,
  weight_of (w_member w) u = recount (a_membership A) u (m0 u) (w_log w) /\ weight_of (w_council w) u = recount (a_council A) u (c0 u) (w_log w).

Lemma reweigh_other a u s to m coins n : to <> a -> reweigh a u (s, WasmExecute to m coins) n = n.
Proof. intros H. unfold reweigh. cbn [fst snd]. apply N.eqb_neq in H. unfold addr in *. rewrite H. destruct m; reflexivity. Qed.

Lemma weighed_call n (w : world) e s to m coins x w1 subs d : weighed w ->
  handle Out A n (set_ext (note w s (WasmExecute to m coins)) x) e s to m coins = Ok (w1, subs, d) -> weighed w1.
Proof.
  intros HW H. set (ww := set_ext (note w s (WasmExecute to m coins)) x) in *. pose proof (handle_log Out A _ _ _ _ _ _ _ _ _ _ H) as HL. apply (handle_all Out A) in H.
  assert (L0 : w_log ww = (s, WasmExecute to m coins) :: w_log w) by reflexivity. assert (M0 : w_member ww = w_member w) by reflexivity. assert (C0 : w_council ww = w_council w) by reflexivity.
  pose proof (apart A HA) as HP. decompose [and] HP. clear HP.
  assert (QUIET : to <> a_membership A -> to <> a_council A -> w_member w1 = w_member ww -> w_council w1 = w_council ww -> weighed w1).
  { intros N1 N2 E1 E2 u. rewrite E1, E2, M0, C0, HL, L0. unfold recount. cbn [fold_right]. rewrite !reweigh_other by assumption. apply HW. }
  destruct H as [(-> & HS & _)|[(-> & HS & _)|[(-> & HS & Q)|[(-> & HS & Q)|[(-> & HS & _)|[(-> & HS & _)|[(-> & HS & _)|[(-> & HS & _)|(HI & HS)]]]]]]]];
    try (apply QUIET; [solve [auto]|solve [auto]|exact (same_member _ _ _ HS ltac:(discriminate))|exact (same_council _ _ _ HS ltac:(discriminate))]).
  - destruct Q as (mm & outs & -> & Q). intros u. rewrite HL, L0, (same_council _ _ _ HS ltac:(discriminate)), C0. unfold recount. cbn [fold_right]. split.
    + rewrite (call_weighs _ _ _ _ _ _ _ _ u Q), M0. destruct (HW u) as (-> & _). unfold reweigh at 1. cbn [fst snd]. rewrite N.eqb_refl. reflexivity.
    + rewrite reweigh_other by auto. apply HW.
  - destruct Q as (mm & outs & -> & Q). intros u. rewrite HL, L0, (same_member _ _ _ HS ltac:(discriminate)), M0. unfold recount. cbn [fold_right]. split.
    + rewrite reweigh_other by auto. apply HW.
    + rewrite (call_weighs _ _ _ _ _ _ _ _ u Q), C0. destruct (HW u) as (_ & ->). unfold reweigh at 1. cbn [fst snd]. rewrite N.eqb_refl. reflexivity.
  - apply QUIET; [| |exact (same_member _ _ _ HS ltac:(discriminate))|exact (same_council _ _ _ HS ltac:(discriminate))]; intros ->; apply HI; unfold dao_addrs; cbn [In]; tauto.
Qed.

Lemma weighed_reply (w : world) e self id r w1 more : weighed w -> on_reply Out A w e self id r = Ok (w1, more) -> weighed w1.
Proof.
  intros HW H. pose proof (reply_log Out A _ _ _ _ _ _ _ H) as HL. apply (reply_all Out A) in H. intros u. rewrite HL.
  destruct H as [(HS & _)|[(HS & _)|HS]]; rewrite (same_member _ _ _ HS ltac:(discriminate)), (same_council _ _ _ HS ltac:(discriminate)); apply HW.
Qed.

Lemma weighed_other (w : world) e s m w1 d : weighed w -> (forall to wm coins, m <> WasmExecute to wm coins) -> other_msg Out A (note w s m) e s m = Ok (w1, d) -> weighed w1.
Proof.
  intros HW HN H. pose proof (other_quiet Out A _ _ _ _ _ _ H) as (_ & _ & _ & HL & _). apply (other_all Out A) in H.
  intros u. rewrite HL, (same_member _ _ _ H ltac:(discriminate)), (same_council _ _ _ H ltac:(discriminate)). cbn [note w_log w_member w_council].
  assert (R : forall a n, reweigh a u (s, m) n = n). { intros a n. unfold reweigh. cbn [snd]. destruct m; try reflexivity. destruct (HN _ _ _ eq_refl). }
  unfold recount. cbn [fold_right]. rewrite !R. apply HW.
Qed.

Lemma go_weighed n (w : world) e j w' d : go n w e j = Ok (w', d) -> weighed w -> weighed w'.
Proof.
  revert w e j w' d. induction n as [n IH] using lt_wf_ind. intros w e j w' d H HI. eapply (go_inv Out A weighed); [| | |exact H|exact HI].
  - intros; eapply weighed_call; eassumption.
  - intros; eapply weighed_reply; eassumption.
  - intros; eapply weighed_other; eassumption.
Qed.

(** * All deliveries *)

Definition typed (c : ctl) (l : list (addr * cosmos_msg)) : Prop := forall x u i, In x l -> ballot A u i x <> None ->
  exists p, oget (ct_proposals c) i = Some p /\ pi_type p = kind x.

Lemma typed_skip c l x : typed c l -> (forall u i, ballot A u i x = None) -> typed c (x :: l).
Proof. intros H B y u i [<-|Hy] Hb; [destruct (Hb (B u i))|]. eapply H; eassumption. Qed.

Definition seats (e : env) (w : world) : Prop := weighed w /\ seated_so (w_gov w) e (w_log w) /\ typed (w_ctl w) (w_log w).

Lemma stepped_weighed (w w1 : world) l : stepped A w w1 l -> weighed w -> weighed w1.
Proof.
  intros (_ & S2 & S3 & _ & S5) HW u. rewrite S2, S3, S5.
  assert (R : forall a n, recount a u n (map (fun gm => (a_controller A, gov_msg_of A gm)) l ++ w_log w) = recount a u n (w_log w)).
  { intros a n. clear S5. induction l as [|gm l IH]; [reflexivity|]. exact IH. }
  rewrite !R. apply HW.
Qed.

Lemma quiet_seats e (w w1 : world) : quiet A w w1 -> weighed w1 -> seated_so (w_gov w) e (w_log w) /\ typed (w_ctl w) (w_log w) -> seats e w1.
Proof. intros (Q1 & Q2 & _ & Q4 & _) H1 (H2 & H3). split; [exact H1|]. rewrite Q1, Q2, Q4. split; assumption. Qed.

Lemma stepped_typed (w w1 : world) l : stepped A w w1 l -> kept w w1 -> typed (w_ctl w) (w_log w) -> typed (w_ctl w1) (w_log w1).
Proof.
  intros (_ & _ & _ & _ & S5) (_ & _ & K) H. rewrite S5. clear S5. induction l as [|gm l IH]; [|apply typed_skip; [exact IH|reflexivity]].
  intros x u i Hx Hb. destruct (H x u i Hx Hb) as (p & Hp & Ht). destruct (K _ _ Hp) as (p' & Hp' & Hc & _). exists p'. split; [exact Hp'|].
  unfold content in Hc. congruence.
Qed.

Lemma turn_typed e (w : world) s m coins L (w1 : world) subs1 : noted A w s m coins L -> typed (w_ctl w) L -> kept w w1 -> turn Out A w e s m w1 subs1 -> typed (w_ctl w1) (w_log w1).
Proof.
  intros HN HT HK T. unfold noted in HN.
  assert (Q : typed (w_ctl w) (w_log w) /\ exists l, stepped A w w1 l); [|destruct Q as (Q & l & S); eapply stepped_typed; eassumption].
  assert (B0 : (forall id o, m <> CCastVote id o /\ m <> CCastCouncilVote id o) -> typed (w_ctl w) (w_log w)).
  { intros H. rewrite HN. apply typed_skip; [exact HT|]. intros u i. unfold ballot. cbn [fst snd]. destruct m; try reflexivity; exfalso; edestruct H as (H1 & H2); [apply H1; reflexivity|apply H2; reflexivity]. }
  destruct T; (split; [|eauto]).
  - apply B0. intros i o. split; intros ->; destruct H.
  - rewrite HN. intros x u i [<-|Hx] Hb; [|eapply HT; eassumption]. unfold ballot in Hb. cbn [fst snd] in Hb. destruct ((s =? u) && (a_controller A =? a_controller A) && (id =? i)) eqn:E; [|destruct (Hb eq_refl)].
    apply andb_true_iff in E. destruct E as (_ & E). apply N.eqb_eq in E. subst i. exists p. split; assumption.
  - rewrite HN. intros x u i [<-|Hx] Hb; [|eapply HT; eassumption]. unfold ballot in Hb. cbn [fst snd] in Hb. destruct ((s =? u) && (a_controller A =? a_controller A) && (id =? i)) eqn:E; [|destruct (Hb eq_refl)].
    apply andb_true_iff in E. destruct E as (_ & E). apply N.eqb_eq in E. subst i. exists p. split; assumption.
  - apply B0. intros i o. split; discriminate.
  - apply B0. intros i o. split; discriminate.
  - apply B0. intros i o. split; discriminate.
  - apply B0. intros i o. destruct H as [->|(ch & -> & _)]; split; discriminate.
Qed.

Lemma turn_seats e (w : world) s m coins L (w1 : world) subs1 : noted A w s m coins L -> seated_so (w_gov w) e L -> wired A w -> size w1 < M64 ->
  (forall u, weight_of (w_member w) u = recount (a_membership A) u (m0 u) L /\ weight_of (w_council w) u = recount (a_council A) u (c0 u) L) ->
  turn Out A w e s m w1 subs1 -> weighed w1 /\ seated_so (w_gov w1) e (w_log w1).
Proof.
  intros HN HS HW0 SZ HW T. unfold noted in HN.
  assert (W0 : weighed w) by (intros u; rewrite HN; apply HW).
  assert (B0 : (forall id o, m <> CCastVote id o /\ m <> CCastCouncilVote id o) -> forall u i, ballot A u i (s, WasmExecute (a_controller A) (ToController m) coins) = None).
  { intros H u i. unfold ballot. cbn [fst snd]. destruct m; try reflexivity; exfalso; edestruct H as (H1 & H2); [apply H1; reflexivity|apply H2; reflexivity]. }
  assert (SAME : (forall id o, m <> CCastVote id o /\ m <> CCastCouncilVote id o) -> seated_so (w_gov w) e (w_log w)).
  { intros H. rewrite HN. apply seat_skip; [exact HS|apply B0; exact H|reflexivity]. }
  assert (VOTE : forall id out amount g, stepped A w w1 [GCastVote id out s amount] -> cast_vote (w_gov w) e id out s amount = Ok g -> w_gov w1 = g ->
    (m = CCastVote id out \/ m = CCastCouncilVote id out) -> amount = brings A m0 c0 s L (s, WasmExecute (a_controller A) (ToController m) coins) -> weighed w1 /\ seated_so (w_gov w1) e (w_log w1)).
  { intros id out amount g S Hc Eg Hm Ha. split; [exact (stepped_weighed _ _ _ S W0)|]. destruct S as (_ & _ & _ & _ & S5). rewrite Eg, S5. cbn [map app].
    apply seat_skip; [|reflexivity|reflexivity]. rewrite HN. eapply seat_cast; [exact HS|exact Hc| |reflexivity|exact Ha].
    intros u i. unfold ballot. cbn [fst snd]. destruct Hm as [->| ->]; rewrite N.eqb_refl, andb_true_r; reflexivity. }
  destruct T.
  - split; [eapply stepped_weighed; eassumption|]. destruct H5 as (_ & _ & _ & _ & S5). rewrite S5, H7. cbn [map app]. apply seat_skip; [|reflexivity|reflexivity].
    apply (seat_create A m0 c0 (w_gov w) e (w_log w) c g id); [|pose proof (wi_count _ _ HW0); unfold size in *; rewrite S5 in SZ; cbn [map app length] in SZ; lia|exact H6]. apply SAME. intros i o. split; intros ->; destruct H.
  - eapply VOTE; try eassumption; [left; reflexivity|]. apply (weight_at_member Out A) in H1. destruct H1 as (-> & _). unfold brings, kind. cbn [snd]. apply HW.
  - eapply VOTE; try eassumption; [right; reflexivity|]. apply (weight_at_council Out A HA) in H1. rewrite H1. unfold brings, kind. cbn [snd]. apply HW.
  - split; [eapply stepped_weighed; eassumption|]. destruct H1 as (_ & _ & _ & _ & S5). rewrite S5, H3. cbn [map app]. apply seat_skip; [|reflexivity|reflexivity].
    eapply seat_end; [|eassumption]. apply SAME. intros i o. split; discriminate.
  - split; [eapply stepped_weighed; eassumption|]. destruct H0 as (_ & _ & _ & _ & S5). rewrite S5, H2. eapply seat_updates; [|eassumption]. apply SAME. intros i o. split; discriminate.
  - split; [eapply stepped_weighed; eassumption|]. destruct H1 as (_ & _ & _ & _ & S5). rewrite S5, H2. cbn [map app]. apply SAME. intros i o. split; discriminate.
  - split; [eapply stepped_weighed; eassumption|]. destruct H0 as (_ & _ & _ & _ & S5). rewrite S5, H1. cbn [map app]. apply SAME. destruct H as [->|(ch & -> & _)]; intros i o; split; discriminate.
Qed.

Lemma go_seats n : forall w e j w' d, go n w e j = Ok (w', d) -> wired A w -> honest A j -> size w' < M64 -> unforged A w' -> seats e w -> seats e w'.
Proof.
  induction n as [n IH] using lt_wf_ind. intros w e j w' d H HW HF HS HU CT.
  assert (HF' : match j with JSubs self subs => self = a_controller A -> fine subs | JMsg _ _ => True end).
  { destruct j; [exact I|]. intros E. apply (HF E). }
  destruct j as [s m|self [|x rest]].
  - destruct n as [|n]; [discriminate|].
    apply go_msg in H. destruct H as [(to & wm & coins & x & w1 & subs & d' & -> & _ & Hh & Hg)|(NE & Ho)].
    + destruct (start_wired A w s (WasmExecute to wm coins) x HW) as (W0 & _ & S0).
      pose proof (weighed_call _ _ _ _ _ _ _ _ _ _ _ (proj1 CT) Hh) as WC.
      assert (LOG0 : w_log (set_ext (note w s (WasmExecute to wm coins)) x) = (s, WasmExecute to wm coins) :: w_log w) by reflexivity.
      assert (EG : w_gov (set_ext (note w s (WasmExecute to wm coins)) x) = w_gov w) by reflexivity.
      assert (NX : to <> a_controller A -> to <> a_governance A -> seated_so (w_gov w) e ((s, WasmExecute to wm coins) :: w_log w) /\ typed (w_ctl w) ((s, WasmExecute to wm coins) :: w_log w)).
      { intros N1 N2. apply N.eqb_neq in N1, N2.
        assert (B : forall u id, ballot A u id (s, WasmExecute to wm coins) = None).
        { intros u id. unfold ballot. cbn [fst snd]. destruct wm; try reflexivity. destruct m; try reflexivity; rewrite N1, andb_false_r; reflexivity. }
        split; [|apply typed_skip; [apply CT|exact B]]. apply seat_skip; [apply CT|exact B|].
        intros u. unfold told. cbn [snd]. destruct wm; try reflexivity. destruct m; try reflexivity. rewrite N2. reflexivity. }
      assert (HW0 : forall u, weight_of (w_member (set_ext (note w s (WasmExecute to wm coins)) x)) u = recount (a_membership A) u (m0 u) (w_log w) /\
        weight_of (w_council (set_ext (note w s (WasmExecute to wm coins)) x)) u = recount (a_council A) u (c0 u) (w_log w)) by (intros u; apply CT).
      set (w0 := set_ext (note w s (WasmExecute to wm coins)) x) in *.
      pose proof (go_size _ _ _ _ _ _ _ _ Hg) as GS.
      apply (handle_cases Out A) in Hh. destruct Hh as [(-> & cm & s' & -> & He & -> & _)|[(-> & gm & g & -> & He & -> & ->)|[(-> & mm & s' & outs & -> & He & -> & -> & _)|(N1 & N2 & N3 & Q)]]].
      * destruct (ctl_turn Out A HA _ _ _ _ _ _ _ _ _ _ W0 He Hg) as (n' & w1 & subs1 & L & T & d2 & G).
        pose proof (go_size _ _ _ _ _ _ _ _ G) as GS1.
        assert (HS1 : size w1 < M64) by lia.
        destruct (turn_wired Out A _ _ _ _ _ _ W0 HS1 T) as (W1 & K1 & F1).
        assert (CT1 : seats e w1).
        { destruct (turn_seats e w0 s cm coins (w_log w) w1 subs1) as (R1 & R2); [exact LOG0|rewrite EG; apply CT|exact W0|exact HS1|exact HW0|exact T|].
          split; [exact R1|]. split; [exact R2|]. eapply turn_typed; [exact LOG0| |exact K1|exact T]. apply CT. }
        assert (AH1 : ahead w1 w'). { split; [|eapply go_log; exact G]. eapply layer1; [exact HA|exact G|exact W1|intros _; exact F1|exact HS]. }
        assert (AH0 : ahead w0 w'). { eapply ahead_trans; [|exact AH1]. eapply turn_ahead; [exact W0|exact HS1|exact T]. }
        assert (J1 : honest A (JSubs (a_controller A) subs1)).
        { intros _. split; [exact F1|]. eapply turn_honest; [exact T|]. intros id p c -> Hp Hc.
          eapply (unforged_back A _ _ AH0 HU); [|exact Hp|exact Hc]. eapply runs_in. rewrite LOG0. left. reflexivity. }
        exact (IH n' ltac:(lia) _ _ _ _ _ G W1 J1 HS HU CT1).
      * apply go_nil in Hg. destruct Hg as [-> _]. split; [exact WC|]. split; [|cbn [set_gov w_ctl w_log]; rewrite LOG0; apply typed_skip; [apply CT|reflexivity]].
        apply gov_execute_ok in He. destruct He as (EA & He). rewrite (wi_admin _ _ W0) in EA. specialize (HF EA). cbn [set_gov w_gov w_log]. rewrite LOG0. rewrite EG in He. destruct CT as (_ & CT & _).
        destruct gm; cbn [forges] in HF; try (rewrite N.eqb_refl in HF; discriminate).
        -- destruct He as (id & He & _). apply seat_skip; [|reflexivity|reflexivity]. eapply seat_create; [exact CT| |exact He].
           pose proof (wi_count _ _ HW). unfold size in *. cbn [set_gov w_log] in HS. rewrite LOG0 in HS. cbn [length] in HS. lia.
        -- destruct He as (He & _). eapply seat_update; [exact CT|reflexivity| |reflexivity|exact He]. intros u. unfold told. cbn [snd]. rewrite N.eqb_refl. reflexivity.
        -- destruct He as (He & _). apply seat_skip; [|reflexivity|reflexivity]. eapply seat_end; [exact CT|exact He].
      * destruct (member_wired A w0 s' W0) as (W1 & K1).
        assert (NG : a_membership A <> a_governance A) by (pose proof (apart A HA) as HP; decompose [and] HP; auto).
        exact (IH n ltac:(lia) _ _ _ _ _ Hg W1 (fun E => False_ind _ (member_not_ctl A HA E)) HS HU (conj WC (NX (member_not_ctl A HA) NG))).
      * destruct (quiet_wired A _ _ Q W0) as (W1 & K1).
        exact (IH n ltac:(lia) _ _ _ _ _ Hg W1 (fun E => False_ind _ (N1 E)) HS HU (quiet_seats _ _ _ Q WC (NX N1 N2))).
    + pose proof (weighed_other _ _ _ _ _ _ (proj1 CT) NE Ho) as WC. apply (other_quiet Out A) in Ho. apply (quiet_seats _ _ _ Ho WC).
      assert (B : forall u id, ballot A u id (s, m) = None) by (intros u id; unfold ballot; cbn [snd]; destruct m; try reflexivity; destruct (NE _ _ _ eq_refl)).
      split; [|apply typed_skip; [apply CT|exact B]]. apply seat_skip; [apply CT|exact B|].
      intros u. unfold told. cbn [snd]. destruct m; try reflexivity. destruct (NE _ _ _ eq_refl).
  - apply go_nil in H. destruct H as [-> _]. exact CT.
  - apply go_cons in H. destruct H as (n' & -> & H).
    assert (HR0 : honest A (JSubs self rest)).
    { intros E. destruct (HF E) as (F1 & F2). split; eapply Forall_inv_tail; eassumption. }
    assert (HM0 : honest A (JMsg self (sm_msg x))). { intros E. destruct (HF E) as (_ & F2). exact (Forall_inv F2). }
    assert (BACK : forall (wc wd : world) dd, wired A wc -> go n' wc e (JSubs self rest) = Ok (wd, dd) -> size wd < M64 -> unforged A wd -> unforged A wc).
    { intros wc wd dd Wc G Sd Ud. eapply unforged_back; [|exact Ud]. split; [|eapply go_log; exact G].
      eapply layer1; [exact HA|exact G|exact Wc|intros E; apply (HR0 E)|exact Sd]. }
    assert (HR : forall wa id r wb more wc dc wd dd, sm_reply x = ReplySuccess id \/ sm_reply x = ReplyAlways id ->
      wired A wa -> seats e wa -> on_reply Out A wa e self id r = Ok (wb, more) -> go n' wb e (JSubs self more) = Ok (wc, dc) ->
      go n' wc e (JSubs self rest) = Ok (wd, dd) -> size wd < M64 -> unforged A wd -> seats e wd).
    { intros wa id r wb more wc dc wd dd HI Wa Ka Hr Hg1 Hg2 Sd Ud.
      pose proof (go_size _ _ _ _ _ _ _ _ Hg2) as S2.
      assert (Wb : wired A wb /\ seats e wb /\ honest A (JSubs self more)).
      { pose proof (weighed_reply _ _ _ _ _ _ _ (proj1 Ka) Hr) as WB. apply (reply_cases Out A) in Hr. destruct Hr as [(-> & s' & Hr & ->)|(N & Q)].
        - assert (id = 3) as ->. { specialize (HF' eq_refl). inversion HF' as [|? ? F1 F2]; subst. destruct HI as [E|E], F1 as [F|F]; congruence. }
          apply reply_3 in Hr. destruct Hr as [-> ->]. rewrite set_ctl_same. split; [exact Wa|]. split; [exact Ka|]. intros _; split; constructor.
        - split; [apply (quiet_wired A _ _ Q Wa)|]. split; [exact (quiet_seats _ _ _ Q WB (proj2 Ka))|]. intros E. destruct (N E). }
      destruct Wb as (Wb & Kb & Fb).
      destruct (layer1 Out A HA _ _ _ _ _ _ Hg1 Wb (fun E => proj1 (Fb E)) ltac:(lia)) as (Wc & _).
      pose proof (IH n' ltac:(lia) _ _ _ _ _ Hg1 Wb Fb ltac:(lia) (BACK _ _ _ Wc Hg2 Sd Ud) Kb) as Kc.
      exact (IH n' ltac:(lia) _ _ _ _ _ Hg2 Wc HR0 Sd Ud Kc). }
    assert (FIRST : forall (w1 : world) d1, go n' w e (JMsg self (sm_msg x)) = Ok (w1, d1) -> size w1 < M64 -> unforged A w1 -> wired A w1 /\ seats e w1).
    { intros w1 d1 H1 S1 U1. destruct (layer1 Out A HA _ _ _ _ _ _ H1 HW I S1) as (W1 & _). split; [exact W1|].
      exact (IH n' ltac:(lia) _ _ _ _ _ H1 HW HM0 S1 U1 CT). }
    destruct H as [(w1 & d1 & H1 & [(_ & H2)|(id & w2 & more & w3 & d3 & E & H2 & H3 & H4)])|(id & w2 & more & w3 & d3 & _ & E & H2 & H3 & H4)].
    + pose proof (go_size _ _ _ _ _ _ _ _ H2). destruct (layer1 Out A HA _ _ _ _ _ _ H1 HW I ltac:(lia)) as (W1 & _).
      destruct (FIRST _ _ H1 ltac:(lia) (BACK _ _ _ W1 H2 HS HU)) as (_ & K1).
      exact (IH n' ltac:(lia) _ _ _ _ _ H2 W1 HR0 HS HU K1).
    + assert (S1 : size w1 < M64).
      { pose proof (go_size _ _ _ _ _ _ _ _ H3). pose proof (go_size _ _ _ _ _ _ _ _ H4). apply (reply_log Out A) in H2. unfold size in *. rewrite H2 in *. lia. }
      destruct (layer1 Out A HA _ _ _ _ _ _ H1 HW I S1) as (W1 & _).
      assert (AH1 : ahead w1 w').
      { assert (Q : wired A w2 /\ (self = a_controller A -> fine more) /\ kept w1 w2).
        { apply (reply_cases Out A) in H2. destruct H2 as [(-> & s' & Hr & ->)|(N & Q)].
          - assert (id = 3) as ->. { specialize (HF' eq_refl). inversion HF' as [|? ? F1 F2]; subst. destruct E as [E|E], F1 as [F|F]; congruence. }
            apply reply_3 in Hr. destruct Hr as [-> ->]. rewrite set_ctl_same. split; [exact W1|]. split; [intros _; constructor|apply kept_refl].
          - destruct (quiet_wired A _ _ Q W1) as (Q1 & Q2). split; [exact Q1|]. split; [intros E1; destruct (N E1)|exact Q2]. }
        destruct Q as (W2 & F2 & K2).
        pose proof (go_size _ _ _ _ _ _ _ _ H3) as S3. pose proof (go_size _ _ _ _ _ _ _ _ H4) as S4.
        destruct (layer1 Out A HA _ _ _ _ _ _ H3 W2 F2 ltac:(lia)) as (W3 & K3).
        assert (A3 : ahead w2 w3). { split; [exact K3|eapply go_log; exact H3]. }
        assert (A4 : ahead w3 w'). { split; [|eapply go_log; exact H4]. eapply layer1; [exact HA|exact H4|exact W3|intros E1; apply (HR0 E1)|exact HS]. }
        apply (reply_log Out A) in H2. eapply ahead_trans; [|eapply ahead_trans; [exact A3|exact A4]]. split; [exact K2|]. exists []. rewrite H2. reflexivity. }
      destruct (FIRST _ _ H1 S1 (unforged_back A _ _ AH1 HU)) as (_ & K1).
      eapply HR; [exact E|exact W1|exact K1|exact H2|exact H3|exact H4|exact HS|exact HU].
    + eapply HR; [right; exact E|exact HW|exact CT|exact H2|exact H3|exact H4|exact HS|exact HU].
Qed.

Lemma seats_later e e' (w : world) : e_time e <= e_time e' -> seats e w -> seats e' w.
Proof.
  intros L (H0 & [H1 H2 H3] & H4). split; [exact H0|]. split; [|exact H4]. split; [exact H1| |exact H3].
  intros u i (pl & ends & R1 & R2 & R3). apply H2. exists pl, ends. split; [exact R1|]. split; [exact R2|lia].
Qed.

Lemma run_seats ts : forall (w : world) t0 e, e_time e = t0 -> timely t0 ts -> wired A w -> seats e w -> size (world_run Out A w ts) < M64 -> unforged A (world_run Out A w ts) ->
  forall e', last_from t0 ts <= e_time e' -> seats e' (world_run Out A w ts).
Proof.
  induction ts as [|t ts IH]; intros w t0 e E0 HT W C S U e' HE; [eapply seats_later; [|exact C]; cbn in HE; lia|].
  change (world_run Out A w (t :: ts)) with (world_run Out A (world_step Out A w t) ts) in *.
  destruct HT as (HT1 & HT2). change (last_from t0 (t :: ts)) with (last_from (e_time (tx_env t)) ts) in HE.
  assert (C0 : seats (tx_env t) w) by (eapply seats_later; [|exact C]; lia).
  pose proof (run_size Out A ts (world_step Out A w t)) as S1.
  destruct (step_cases Out A w t) as [E|(d & Hd & H)]; [rewrite E in *; exact (IH _ _ _ eq_refl HT2 W C0 S U _ HE)|].
  assert (W1 : wired A (world_step Out A w t)) by (eapply layer1; [exact HA|exact H|exact W|exact I|lia]).
  destruct (run_ahead Out A HA ts _ W1 S) as (_ & A2 & _).
  eapply IH; [reflexivity|exact HT2|exact W1| |exact S|exact U|exact HE]. eapply go_seats; [exact H|exact W| |lia|eapply unforged_back; eassumption|exact C0].
  intros E. destruct (dao_signer A _ Hd) as (N1 & _). contradiction.
Qed.

End W.
