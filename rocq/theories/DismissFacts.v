(** Decisions about the council take effect. *)
From Verif Require Import Base OMap OMapLemmas Assets PollModel PollSpec PollProofs PollFacts FundsModel FundsSpec MemberModel MemberSpec MemberProofs Msgs
  ControllerModel ControllerSpec ControllerProofs ControllerFacts TreasuryModel EnterpriseModel OutpostsModel WorldModel WorldSpec WorldProofs WorldRun WorldFacts
  LiftProofs LiftFacts LiveSpec LiveProofs EndSpec RipeSpec RipeFacts PurseSpec OrderSpec SettingSpec SettingFacts AccessProofs BallotSpec RecountSpec MajoritySpec MajorityFacts
  EnactSpec EnactProofs EnactFacts DismissSpec DismissProofs.

(** * Who is told of changes of the council *)
Section Ready.
Context {X : Type}.
Variable Out : outside X.
Variable A : addrs.
Notation world := (world X).

Definition quiet (l : list (addr * cosmos_msg)) : Prop :=
  forall s h coins, In (s, WasmExecute (a_council A) (ToMembership (MultisigMsg (MAddHook h))) coins) l -> h = a_controller A.

Lemma multisig_step o m e s coins cm st outs : member_execute o (MMultisig m) e s coins cm = Ok (st, outs) ->
  exists m', st = MMultisig m' /\ m_enterprise m' = m_enterprise m /\
    forall h, ohas (m_hooks m') h = true -> ohas (m_hooks m) h = true \/ cm = MultisigMsg (MAddHook h).
Proof.
  intros H. destruct cm; try discriminate H. cbn [member_execute] in H. apply bind_ok in H. destruct H as ((m1 & o1) & H & E). injection E as <- _.
  exists m1. split; [reflexivity|]. destruct m0; cbn [multisig_execute] in H.
  - unfold update_members in H. apply bind_ok in H. destruct H as (? & _ & H). apply bind_ok in H. destruct H as (l' & _ & H).
    apply bind_ok in H. destruct H as (((m2 & t) & ch) & HL & H). injection H as <- _. cbn.
    assert (G : m_enterprise m2 = m_enterprise m /\ m_hooks m2 = m_hooks m).
    { revert HL. generalize (total_weight m), (@nil weight_change). revert m. clear. induction l' as [|[u w] l' IH]; intros m t0 c0 H; cbn [fold_res] in H.
      - injection H as <- _ _. auto.
      - apply bind_ok in H. destruct H as (((m3 & t3) & c3) & H1 & H). unfold update_members_one in H1. apply bind_ok in H1. destruct H1 as (? & _ & H1).
        apply bind_ok in H1. destruct H1 as (? & _ & H1). injection H1 as <- _ _. apply IH in H. exact H. }
    destruct G as (G1 & G2). rewrite G2. auto.
  - apply set_members_ok in H. destruct H as (_ & _ & w & -> & _). cbn. auto.
  - apply bind_ok in H. destruct H as (m2 & H & E). injection E as <- _. unfold add_hook in H. apply bind_ok in H. destruct H as (? & _ & H).
    apply bind_ok in H. destruct H as (h' & Hh & H). apply addr_validate_ok in Hh. destruct Hh as (-> & _). injection H as <-. cbn. split; [reflexivity|].
    intros k Hk. unfold ohas in *. rewrite oget_oset in Hk. destruct (N.eqb_spec h' k) as [->|Hn]; auto.
  - apply bind_ok in H. destruct H as (m2 & H & E). injection E as <- _. unfold remove_hook in H. apply bind_ok in H. destruct H as (? & _ & H).
    apply bind_ok in H. destruct H as (h' & Hh & H). injection H as <-. cbn. split; [reflexivity|].
    intros k Hk. unfold ohas in *. rewrite oget_odel in Hk. destruct (_ =? k); [discriminate Hk|auto].
Qed.

Lemma run_ready ts w : council_ready A w -> quiet (w_log (world_run Out A w ts)) -> council_ready A (world_run Out A w ts).
Proof.
  intros HR. pose (P := fun w : world => quiet (w_log w) -> council_ready A w). assert (P0 : P w) by (intros _; exact HR). clear HR. change (P (world_run Out A w ts)).
  revert w P0. intros w P0. apply (AccessProofs.run_inv Out A P); [| | |exact P0]; clear ts w P0.
  - intros n w e s to m coins x w1 subs d HP _ H Q. rewrite (handle_log Out A _ _ _ _ _ _ _ _ _ _ H) in Q. cbn [set_ext note w_log] in Q.
    assert (Q0 : quiet (w_log w)) by (intros a h c Hi; eapply Q; right; exact Hi). specialize (HP Q0).
    apply handle_all in H.
    destruct H as [(-> & HS & cm & -> & H)|[(-> & HS & cm & -> & H)|[(-> & HS & cm & outs & -> & H)|[(-> & HS & cm & outs & -> & H)|
        [(-> & HS & cm & pays & -> & H)|[(-> & HS & cm & -> & H)|[(-> & HS & cm & -> & H)|[(-> & HS & cm & -> & H)|(HI & HS)]]]]]]]];
      try (destruct HP as (m0 & E & R); exists m0; split; [rewrite (same_council _ _ _ HS ltac:(discriminate)); exact E|exact R]).
    destruct HP as (m0 & E & R1 & R2). cbn [set_ext note w_council] in H. rewrite E in H. apply multisig_step in H. destruct H as (m1 & E1 & E2 & E3).
    exists m1. split; [exact E1|]. split; [congruence|]. intros h Hh. destruct (E3 h Hh) as [K|K]; [exact (R2 h K)|]. subst cm. eapply Q. left. reflexivity.
  - intros w e self id r w1 more HP H Q. rewrite (reply_log Out A _ _ _ _ _ _ _ H) in Q. specialize (HP Q). apply reply_all in H.
    assert (E : w_council w1 = w_council w) by (destruct H as [(HS & _)|[(HS & _)|HS]]; exact (same_council _ _ _ HS ltac:(discriminate))).
    destruct HP as (m0 & E0 & R). exists m0. split; [congruence|exact R].
  - intros w e s m w1 d HP _ H Q. assert (L : w_log w1 = (s, m) :: w_log w) by (exact (other_log Out A _ _ _ _ _ _ H)). rewrite L in Q.
    assert (Q0 : quiet (w_log w)) by (intros a h c Hi; eapply Q; right; exact Hi). specialize (HP Q0). apply other_all in H.
    destruct HP as (m0 & E0 & R). exists m0. split; [rewrite (same_council _ _ _ H ltac:(discriminate)); exact E0|exact R].
Qed.
End Ready.

(** * Passed decisions *)
Section Passed.
Context {X : Type}.
Variable Out : outside X.
Variable A : addrs.

Lemma passed_internal t e id dep ab y (w1 : world X) p :
  NoDup (dao_addrs A) -> free_calls Out -> fits A t w1 -> council_ready A w1 -> oget (ct_proposals (w_ctl w1)) id = Some p -> Forall internal (pi_actions p) ->
  exists w2, carried A w1 w2 id (pi_actions p) /\
    forall w', concluded Out A e id dep (Passed ab y) w1 w' <-> exists k, go Out A k w2 e (JSubs (a_controller A) dep) = Ok (w', None).
Proof.
  intros HA HF F HR Hp HH. destruct (internal_take_effect Out A HA HF t w1 e id p F HR Hp HH) as (k0 & w2 & H0 & HC). exists w2. split; [exact HC|].
  intros w'. unfold concluded. split.
  - intros (w3 & (k & Hk) & k1 & [(d & H1)|(-> & x & H1 & Hx)]).
    + assert (E : @Ok (world X * option N) (w2, None) = Ok (w3, d)).
      { rewrite <- (go_more Out A _ (k0 + k1)%nat _ _ _ _ H0 ltac:(discriminate) ltac:(lia)).
        exact (go_more Out A _ (k0 + k1)%nat _ _ _ _ H1 ltac:(discriminate) ltac:(lia)). }
      injection E as -> _. eauto.
    + assert (E : @Ok (world X * option N) (w2, None) = Err x).
      { rewrite <- (go_more Out A _ (k0 + k1)%nat _ _ _ _ H0 ltac:(discriminate) ltac:(lia)).
        apply (go_more Out A _ (k0 + k1)%nat _ _ _ _ H1); [congruence|lia]. }
      discriminate E.
  - intros (k & Hk). exists w2. split; [eauto|]. exists k0. left. eauto.
Qed.
End Passed.

Lemma stays_ready X (Out : outside X) A w0 ts w :
  council_ready A w0 -> w = world_run Out A w0 ts ->
  (forall s h coins, In (s, WasmExecute (a_council A) (ToMembership (MultisigMsg (MAddHook h))) coins) (w_log w) -> h = a_controller A) -> council_ready A w.
Proof. intros H -> Q. apply run_ready; assumption. Qed.

Lemma internal_decision X (Out : outside X) A w0 ts w e s id p pl total ab y :
  new_dao A w0 -> rules_fit w0 -> free_calls Out -> w = world_run Out A w0 ts -> lasting w -> council_ready A w ->
  ripe Out A w e s id p pl total -> final_status pl total = Passed ab y -> Forall internal (pi_actions p) ->
  exists w2, carried A (judged A w e s id p pl total (Passed ab y)) w2 id (pi_actions p) /\
    forall w', (exists gas d, go Out A gas w e (JMsg s (ask_resolution A id)) = Ok (w', d)) <->
      exists k, go Out A k w2 e (JSubs (a_controller A) (handed A p (Passed ab y))) = Ok (w', None).
Proof.
  intros N R F EW L HR RP HV HH.
  pose proof (run_fits_new Out A w0 ts N R) as HW. rewrite <- EW in HW.
  destruct (judged_fits X A _ w e s id p pl total (Passed ab y) HW (rp_proposal _ _ _ _ _ _ _ _ _ RP)) as (F1 & p' & Hp' & Ea).
  destruct (passed_internal Out A _ e id (handed A p (Passed ab y)) ab y _ p' (nd_addrs _ _ N) F F1 HR Hp' ltac:(rewrite Ea; exact HH)) as (w2 & C & PC). rewrite Ea in C.
  exists w2. split; [exact C|]. intros w'. rewrite (executable_exact X Out A w0 ts w e s id w' N F EW L). split.
  - intros (p2 & pl2 & t2 & v & RP2 & Hv & _ & HC).
    assert (p2 = p) by (pose proof (rp_proposal _ _ _ _ _ _ _ _ _ RP); pose proof (rp_proposal _ _ _ _ _ _ _ _ _ RP2); congruence). subst p2.
    assert (pl2 = pl) by (pose proof (rp_poll _ _ _ _ _ _ _ _ _ RP); pose proof (rp_poll _ _ _ _ _ _ _ _ _ RP2); congruence). subst pl2.
    assert (t2 = total) by (rewrite (rp_total _ _ _ _ _ _ _ _ _ RP), (rp_total _ _ _ _ _ _ _ _ _ RP2); reflexivity). subst t2.
    rewrite HV in Hv. subst v. apply PC. exact HC.
  - intros H. exists p, pl, total, (Passed ab y). split; [exact RP|]. split; [symmetry; exact HV|]. split; [intros _; split; discriminate|]. apply PC. exact H.
Qed.

(** ** The council, in words *)
Lemma seats_last l before c after u (f : addr -> N) : l = before ++ PUpdateCouncil c :: after -> existsb about_council after = false ->
  fold_left in_office l f u = if existsb (N.eqb u) (named c) then 1 else 0.
Proof.
  intros -> H. rewrite fold_left_app. cbn [fold_left in_office]. generalize (fold_left in_office before f). clear f before. intros f.
  assert (G : forall g, fold_left in_office after g = g); [|rewrite G; reflexivity].
  induction after as [|a after IH]; intros g; [reflexivity|]. cbn [existsb] in H. apply orb_false_iff in H. destruct H as (H1 & H2). cbn [fold_left].
  destruct a; try discriminate H1; exact (IH H2 g).
Qed.
Lemma council_last l before c after (f : option council_config) : l = before ++ PUpdateCouncil c :: after -> existsb about_council after = false ->
  fold_left seated l f = seated None (PUpdateCouncil c).
Proof.
  intros -> H. rewrite fold_left_app. cbn [fold_left]. generalize (fold_left seated before f). clear f before. intros f.
  assert (G : forall g, fold_left seated after g = g); [|rewrite G; destruct c; reflexivity].
  induction after as [|a after IH]; intros g; [reflexivity|]. cbn [existsb] in H. apply orb_false_iff in H. destruct H as (H1 & H2). cbn [fold_left].
  destruct a; try discriminate H1; exact (IH H2 g).
Qed.

Lemma majority_replaces X (Out : outside X) A birth w0 before later id ends p pl pl' us e s past c rest :
  new_dao A w0 -> rules_fit w0 -> free_calls Out -> created_by birth (w_member w0) -> created_by birth (w_council w0) -> timely birth (before ++ later) ->
  let w := world_run Out A w0 before in let w' := world_run Out A w0 (before ++ later) in
  lasting w -> lasting w' -> calm A w' -> council_ready A w' ->
  closing w General id ends -> oget (g_polls (w_gov w)) id = Some pl -> seconds_before ends before -> all_after ends later ->
  stand_for A w id [Yes] us -> winning w pl us ->
  oget (ct_proposals (w_ctl w')) id = Some p -> pi_executed_at p = None -> oget (g_polls (w_gov w')) id = Some pl' ->
  ends <= e_time e -> restricted_by Out A w' (a_enterprise A) s = Ok false ->
  Forall internal (pi_actions p) -> pi_actions p = past ++ PUpdateCouncil c :: rest -> existsb about_council rest = false ->
  let v := Passed 0 (support A w id Yes) in
  exists w2, (forall w'', (exists gas d, go Out A gas w' e (JMsg s (ask_resolution A id)) = Ok (w'', d)) <->
                exists k, go Out A k w2 e (JSubs (a_controller A) (handed A p v)) = Ok (w'', None)) /\
    (forall u, weight_of (w_council w2) u = if existsb (N.eqb u) (named c) then 1 else 0) /\
    ct_council (w_ctl w2) = seated None (PUpdateCouncil c) /\
    carried A (judged A w' e s id p pl' (weight_now w General) v) w2 id (pi_actions p).
Proof.
  intros HN R HFC B1 B2 HT w w' HLw HL HC HR HCl Hpl HB HAf HU HW Hp Hx Hpl' He Hr HH EL HA v.
  pose proof (fun w'' => majority_executes X Out A birth w0 before later id ends p pl pl' us e s w'' HN HFC B1 B2 HT HLw HL HC HCl Hpl HB HAf HU HW Hp Hx Hpl' He Hr) as ME.
  cbn zeta in ME. fold w w' v in ME.
  destruct (judged_fits X A _ w' e s id p pl' (weight_now w General) v (run_fits_new Out A w0 _ HN R) Hp) as (F1 & p' & Hp' & Ea).
  destruct (passed_internal Out A _ e id (handed A p v) 0 (support A w id Yes) _ p' (nd_addrs _ _ HN) HFC F1 HR Hp' ltac:(rewrite Ea; exact HH)) as (w2 & C & PC).
  rewrite Ea in C. exists w2. split; [intros w''; exact (iff_trans (ME w'') (PC w''))|].
  split; [|split; [|exact C]].
  - intros u. rewrite (ca_seats _ _ _ _ _ C). exact (seats_last _ past c rest u _ EL HA).
  - rewrite (ca_council _ _ _ _ _ C). exact (council_last _ past c rest _ EL HA).
Qed.
