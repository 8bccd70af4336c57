(** Every contract of a DAO goes through a history of its own. *)
From Verif Require Import Base OMap OMapLemmas Assets PollModel FundsModel FundsSpec MemberModel MemberSpec Msgs ControllerModel TreasuryModel
  EnterpriseModel OutpostsModel WorldModel WorldSpec WorldProofs WorldRun LiftSpec.

Section Lift.
Context {X : Type}.
Variable Out : outside X.
Variable A : addrs.
Variables (S C T : Type) (proj : world X -> S) (step : S -> C -> S) (a : addr).
Variables (view : addr * wasm_msg * list coin -> T) (item : C -> list T) (when : C -> env -> Prop).
Hypothesis Hhandle : forall n w e s to m coins w1 subs d, handle Out A n w e s to m coins = Ok (w1, subs, d) ->
  exists cs, proj w1 = fold_left step cs (proj w) /\ flat_map item cs = (if to =? a then [view (s, m, coins)] else []) /\ Forall (fun c => when c e) cs.
Hypothesis Hreply : forall w e self id r w1 more, on_reply Out A w e self id r = Ok (w1, more) ->
  exists cs, proj w1 = fold_left step cs (proj w) /\ flat_map item cs = [] /\ Forall (fun c => when c e) cs.
Hypothesis Hother : forall w e s m w1 d, other_msg Out A w e s m = Ok (w1, d) -> proj w1 = proj w.
Hypothesis Hnote : forall w s m, proj (note w s m) = proj w.
Hypothesis Hext : forall w x, proj (set_ext w x) = proj w.

Definition passes (w w' : world X) (e : env) : Prop :=
  exists l cs, w_log w' = l ++ w_log w /\ proj w' = fold_left step cs (proj w) /\
    flat_map item cs = map view (flat_map (seen_by a) (rev l)) /\ Forall (fun c => when c e) cs.

Lemma passes_refl w e : passes w w e.
Proof. exists [], []. repeat split; constructor. Qed.
Lemma passes_trans w1 w2 w3 e : passes w1 w2 e -> passes w2 w3 e -> passes w1 w3 e.
Proof.
  intros (l1 & c1 & A1 & A2 & A3 & A4) (l2 & c2 & B1 & B2 & B3 & B4). exists (l2 ++ l1), (c1 ++ c2).
  split; [rewrite B1, A1, app_assoc; reflexivity|]. split; [rewrite fold_left_app, B2, A2; reflexivity|].
  split; [rewrite flat_map_app, rev_app_distr, flat_map_app, map_app, A3, B3; reflexivity|]. apply Forall_app; auto.
Qed.

Lemma passes_same w w' e : w_log w' = w_log w -> proj w' = proj w -> passes w w' e.
Proof. intros H1 H2. exists [], []. repeat split; try assumption. constructor. Qed.

Lemma other_log w e s m w1 d : other_msg Out A w e s m = Ok (w1, d) -> w_log w1 = w_log w.
Proof. intros H. apply other_quiet in H. destruct H as (_ & _ & _ & H & _). exact H. Qed.

Lemma go_passes n : forall w e j w' d, go Out A n w e j = Ok (w', d) -> passes w w' e.
Proof.
  induction n as [n IH] using lt_wf_ind. intros w e j w' d H. destruct j as [s m|self [|x rest]].
  - destruct n as [|n]; [discriminate|]. apply go_msg in H.
    destruct H as [(to & wm & coins & x & w1 & subs & d' & -> & _ & Hh & Hg)|(HN & Ho)].
    + eapply passes_trans; [|eapply IH; [|exact Hg]; lia].
      pose proof (handle_log _ _ _ _ _ _ _ _ _ _ _ _ Hh) as HL. apply Hhandle in Hh. destruct Hh as (cs & H1 & H2 & H3).
      exists [(s, WasmExecute to wm coins)], cs. split; [rewrite HL; reflexivity|]. split; [rewrite H1, Hext, Hnote; reflexivity|]. split; [|exact H3].
      rewrite H2. cbn [rev app flat_map seen_by snd fst]. destruct (to =? a); reflexivity.
    + exists [(s, m)], []. split; [rewrite (other_log _ _ _ _ _ _ Ho); reflexivity|]. split; [rewrite (Hother _ _ _ _ _ _ Ho), Hnote; reflexivity|].
      split; [|constructor]. cbn [rev app flat_map]. unfold seen_by. cbn [snd]. destruct m; try reflexivity. destruct (HN _ _ _ eq_refl).
  - apply go_nil in H. destruct H as [-> _]. apply passes_refl.
  - apply go_cons in H. destruct H as (n' & -> & H).
    assert (HR : forall wa id r wb more, on_reply Out A wa e self id r = Ok (wb, more) -> passes wa wb e).
    { intros wa id r wb more Hr. pose proof (reply_log _ _ _ _ _ _ _ _ _ Hr) as HL. apply Hreply in Hr. destruct Hr as (cs & H1 & H2 & H3).
      exists [], cs. auto. }
    destruct H as [(w1 & d1 & H1 & [(_ & H2)|(id & w2 & more & w3 & d3 & E & H2 & H3 & H4)])|(id & w2 & more & w3 & d3 & _ & E & H2 & H3 & H4)].
    + eapply passes_trans; eapply IH; try eassumption; lia.
    + eapply passes_trans; [eapply IH; [|exact H1]; lia|]. eapply passes_trans; [eapply HR; exact H2|].
      eapply passes_trans; eapply IH; try eassumption; lia.
    + eapply passes_trans; [eapply HR; exact H2|]. eapply passes_trans; eapply IH; try eassumption; lia.
Qed.

Lemma run_passes ts : forall w, exists l css, w_log (world_run Out A w ts) = l ++ w_log w /\
  Forall2 (fun t cs => Forall (fun c => when c (tx_env t)) cs) ts css /\
  proj (world_run Out A w ts) = fold_left step (concat css) (proj w) /\
  flat_map item (concat css) = map view (flat_map (seen_by a) (rev l)).
Proof.
  induction ts as [|t ts IH]; intros w; [exists [], []; repeat split; constructor|].
  change (world_run Out A w (t :: ts)) with (world_run Out A (world_step Out A w t) ts).
  destruct (IH (world_step Out A w t)) as (l & css & H1 & H2 & H3 & H4).
  assert (P : passes w (world_step Out A w t) (tx_env t)).
  { destruct (step_cases Out A w t) as [->|(d & _ & H)]; [apply passes_refl|]. eapply go_passes. exact H. }
  destruct P as (l1 & c1 & A1 & A2 & A3 & A4). exists (l ++ l1), (c1 :: css).
  split; [rewrite H1, A1, app_assoc; reflexivity|]. split; [constructor; assumption|]. cbn [concat].
  split; [rewrite fold_left_app, H3, A2; reflexivity|].
  rewrite flat_map_app, rev_app_distr, flat_map_app, map_app, A3, H4. reflexivity.
Qed.
End Lift.
