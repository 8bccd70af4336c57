(** Decisions about the council never fail. *)
From Verif Require Import Base OMap OMapLemmas Assets PollModel PollSpec PollProofs PollFacts FundsModel FundsSpec MemberModel MemberSpec MemberProofs Msgs
  ControllerModel ControllerSpec ControllerProofs ControllerFacts TreasuryModel EnterpriseModel OutpostsModel WorldModel WorldSpec WorldProofs WorldRun WorldFacts
  LiftProofs LiftFacts LiveSpec LiveProofs PurseSpec OrderSpec AbroadSpec AbroadProofs RuleProofs OrderProofs DoneSpec DoneProofs SettingSpec AccessProofs
  EnactSpec EnactProofs DismissSpec.

(** * The list of members *)
Definition ones (ms : list addr) : list (N * N) := map (fun m => (m, 1)) ms.

Lemma ones_loop old ms : forall m t ch, t + N.of_nat (length ms) < M128 -> exists m' ch',
  fold_res (set_members_one old) (m, t, ch) (ones ms) = Ok (m', t + N.of_nat (length ms), ch') /\
  (forall u, ogetN (m_weights m') u = if existsb (N.eqb u) ms then 1 else ogetN (m_weights m) u) /\
  m_enterprise m' = m_enterprise m /\ m_hooks m' = m_hooks m.
Proof.
  induction ms as [|a ms IH]; intros m t ch Hl.
  - exists m, ch. cbn [ones map fold_res length existsb]. rewrite N.add_0_r. auto.
  - cbn [length] in Hl. rewrite Nat2N.inj_succ in Hl. cbn [ones map fold_res set_members_one].
    assert (U : uint_add t 1 = Ok (t + 1)). { unfold uint_add. rewrite (proj2 (N.ltb_lt _ _)); [reflexivity|lia]. }
    rewrite U. cbn [bind]. destruct (IH (set_member_weight m a 1) (t + 1) (ch ++ [mk_change a (ogetN old a) 1])) as (m' & ch' & E & W & E1 & E2); [lia|].
    exists m', ch'. fold (ones ms). rewrite E. split; [f_equal; f_equal; f_equal; cbn [length]; lia|]. split; [|split; [exact E1|exact E2]].
    intros u. rewrite W. cbn [existsb]. destruct (existsb (N.eqb u) ms); [rewrite orb_true_r; reflexivity|]. rewrite orb_false_r.
    cbn [set_member_weight with_member_weights m_weights]. unfold ogetN. rewrite oget_oset. rewrite (N.eqb_sym u a). destruct (a =? u); reflexivity.
Qed.

Lemma set_named o m e sender ms : mo_controller o = Ok sender -> ~ In 0 ms -> NoDup ms -> N.of_nat (length ms) < M128 ->
  exists m' ch, set_members o m e sender (ones ms) = Ok (m', report m' ch) /\
  (forall u, ogetN (m_weights m') u = if existsb (N.eqb u) ms then 1 else 0) /\ total_weight m' = N.of_nat (length ms) /\
  m_enterprise m' = m_enterprise m /\ m_hooks m' = m_hooks m.
Proof.
  intros HO H0 HN HL. unfold set_members, controller_only. rewrite HO. cbn [bind]. rewrite N.eqb_refl. cbn [guard bind].
  assert (D : dedup_user_weights (ones ms) = Ok (ones ms)).
  { unfold dedup_user_weights. assert (M : map_res (fun uw : N * N => u <- addr_validate (fst uw);; Ok (u, snd uw)) (ones ms) = Ok (ones ms)).
    { clear - H0. induction ms as [|a ms IH]; [reflexivity|]. cbn [ones map map_res fst snd]. unfold addr_validate at 1.
      destruct (N.eqb_spec a 0) as [->|Ha]; [exfalso; apply H0; left; reflexivity|]. cbn [bind]. fold (ones ms). rewrite IH; [reflexivity|]. intros Hi. apply H0. right. exact Hi. }
    rewrite M. cbn [bind]. assert (F : map fst (ones ms) = ms) by (unfold ones; rewrite map_map; apply map_id). unfold addr in *. rewrite F, (proj2 (ControllerProofs.nodupb_NoDup ms) HN). reflexivity. }
  rewrite D. cbn [bind].
  destruct (ones_loop (m_weights m) ms (with_member_weights m oempty) 0 []) as (m' & ch & E & W & E1 & E2); [rewrite N.add_0_l; exact HL|]. rewrite E. cbn [bind].
  exists (save_total_weight m' e (0 + N.of_nat (length ms))), ch. split; [reflexivity|]. split; [intros u; exact (W u)|]. split; [apply total_save|]. split; [exact E1|exact E2].
Qed.

(** * The whole DAO *)
Section Carry.
Context {X : Type}.
Variable Out : outside X.
Variable A : addrs.
Hypothesis HA : NoDup (dao_addrs A).
Hypothesis HF : free_calls Out.
Notation world := (world X).
Variable t : dao_type.

Definition council_call (c : option council_spec) : cosmos_msg :=
  WasmExecute (a_council A) (ToMembership (MultisigMsg (MSetMembers (ones (named c))))) [].
Definition deeds (l : list proposal_action) : list cosmos_msg :=
  flat_map (fun a => match a with PUpdateMetadata u => [enterprise_call A (EnUpdateMetadata u)] | PUpdateCouncil c => [council_call c] | _ => [] end) l.

Lemma internal_run o att l : co_components o = Ok (wiring_of A att) -> co_dao_type o = Ok t -> Forall internal l -> Forall (fine t) l ->
  forall s subs, ct_enterprise s = a_enterprise A -> sane_config t (ct_config s) ->
  fold_res (run_action_acc o) (s, subs) l =
    Ok (with_council (with_config s (fold_left ruled l (ct_config s))) (fold_left seated l (ct_council s)), subs ++ map plain (deeds l)).
Proof.
  intros HC HT H1 H2. induction l as [|a l IH]; intros s subs HE HS.
  - cbn [fold_res fold_left deeds flat_map map]. rewrite app_nil_r. destruct s; reflexivity.
  - inversion H1 as [|? ? Ha Hl]; subst. inversion H2 as [|? ? Fa Fl]; subst. specialize (IH Hl Fl). cbn [fold_res].
    destruct Ha as [Ha|(c & -> & Hc)].
    + destruct a; try (exfalso; exact Ha).
      * unfold run_action_acc at 1. cbn [fst snd run_action bind]. rewrite (IH s _ HE HS). cbn [fold_left ruled seated deeds flat_map app map]. rewrite HE, <- app_assoc. reflexivity.
      * unfold run_action_acc at 1. cbn [fst snd run_action]. unfold act_gov_config. rewrite HT. cbn [bind]. rewrite ruled_is.
        pose proof (ruled_sane t _ _ HS Fa) as S1.
        assert (V : validate_gov_config t (ruled (ct_config s) (PUpdateGovConfig u)) = Ok tt) by (apply validate_gov_config_ok; exact S1).
        rewrite V, HC. cbn [bind]. cbn [house] in Ha. rewrite Ha. cbn [bind]. rewrite app_nil_r.
        rewrite (IH (with_config s (ruled (ct_config s) (PUpdateGovConfig u))) subs HE S1). cbn [fold_left deeds flat_map app]. reflexivity.
    + unfold run_action_acc at 1. cbn [fst snd run_action]. unfold act_council. destruct Fa as (x & V). rewrite V. cbn [bind]. rewrite HC. cbn [bind].
      assert (Ex : x = seated (ct_council s) (PUpdateCouncil c)).
      { destruct c as [c|]; [apply validate_council_some in V; destruct V as (_ & _ & _ & _ & _ & ->); destruct c; reflexivity|apply validate_council_none in V; exact V]. }
      rewrite (IH (with_council s x) _ HE HS). cbn [fold_left ruled deeds flat_map app map]. rewrite <- app_assoc, <- Ex. destruct c; reflexivity.
Qed.

Definition logged (w : world) (l : list (addr * cosmos_msg)) : world :=
  mk_world (w_enterprise w) (w_ctl w) (w_gov w) (w_member w) (w_council w) (w_funds w) (w_treasury w) (w_outposts w) (l ++ w_log w) (w_upgraded w) (w_ext w).

Lemma tell_controller n (w : world) e ch : en_wired A (w_enterprise w) -> ct_enterprise (w_ctl w) = a_enterprise A ->
  let m := WasmExecute (a_controller A) (ToController (CWeightsChanged ch)) [] in
  go Out A (S (S n)) w e (JMsg (a_council A) m) = Ok (logged w [(a_council A, m)], None).
Proof.
  intros HE HC m. cbn [go]. cbn [note w_ext]. unfold m. rewrite HF. cbn [bind]. unfold handle. rewrite N.eqb_refl. cbn [ctl_execute].
  unfold weights_changed. set (w1 := set_ext _ _). destruct (components_wired A w1 HE) as (att & HK).
  assert (K : co_components (ctl_oracle_of Out A w1) = Ok (wiring_of A att)) by (cbn; change (w_ctl w1) with (w_ctl w); rewrite HC; exact HK).
  rewrite K. cbn [bind wiring_of Msgs.c_council]. rewrite N.eqb_refl. cbn [bind]. destruct w; reflexivity.
Qed.

Lemma tell_all e ch hs : Forall (eq (a_controller A)) hs -> forall (w : world), en_wired A (w_enterprise w) -> ct_enterprise (w_ctl w) = a_enterprise A ->
  exists k news, go Out A k w e (JSubs (a_council A) (map member_sub (map (fun h => OReport h ch) hs))) = Ok (logged w news, None).
Proof.
  induction 1 as [|h hs <- _ IH]; intros w HE HC.
  - exists 1%nat, []. destruct w; reflexivity.
  - set (m := WasmExecute (a_controller A) (ToController (CWeightsChanged ch)) []).
    destruct (IH (logged w [(a_council A, m)]) HE HC) as (k & news & Hk). exists (S (S (S k))), (news ++ [(a_council A, m)]).
    cbn [map member_sub]. fold m. eapply go_next; [exact (tell_controller k w e ch HE HC)|].
    apply (go_more Out A k (S (S k))) in Hk; [|discriminate|lia]. fold m. rewrite Hk. unfold logged. cbn. rewrite <- app_assoc. reflexivity.
Qed.

Definition reseated (w : world) (m : members) (news : list (addr * cosmos_msg)) : world :=
  mk_world (w_enterprise w) (w_ctl w) (w_gov w) (w_member w) (MMultisig m) (w_funds w) (w_treasury w) (w_outposts w) (news ++ w_log w) (w_upgraded w) (w_ext w).

Lemma reseat (w : world) e c : en_wired A (w_enterprise w) -> ct_enterprise (w_ctl w) = a_enterprise A -> council_ready A w ->
  NoDup (named c) -> ~ In 0 (named c) -> N.of_nat (length (named c)) < M128 ->
  exists k m news, go Out A k w e (JMsg (a_controller A) (council_call c)) = Ok (reseated w m news, None) /\
    (forall u, ogetN (m_weights m) u = if existsb (N.eqb u) (named c) then 1 else 0) /\ total_weight m = N.of_nat (length (named c)) /\
    m_enterprise m = a_enterprise A /\ (forall h, ohas (m_hooks m) h = true -> h = a_controller A).
Proof.
  intros HE HC (m0 & EM & EE & HH) HN H0 HL.
  set (w1 := note w (a_controller A) (council_call c)).
  destruct (components_wired A w1 HE) as (att & HK).
  assert (HO : mo_controller (member_oracle_of Out A w1 (w_council w)) = Ok (a_controller A)).
  { cbn [member_oracle_of mo_controller]. rewrite EM. cbn [members_of]. rewrite EE, HK. reflexivity. }
  destruct (set_named _ m0 e _ (named c) HO H0 HN HL) as (m1 & ch & E & W & T & E1 & E2).
  destruct (tell_all e ch (okeys (m_hooks m1))) with (w := set_councillors w1 (MMultisig m1)) as (k & news & Hk); [|exact HE|exact HC|].
  { apply Forall_forall. intros h Hi. symmetry. apply HH. apply ohas_true. rewrite <- E2. apply okeys_In. exact Hi. }
  exists (S k), m1, (news ++ [(a_controller A, council_call c)]). split; [|split; [exact W|split; [exact T|split; [congruence|rewrite E2; exact HH]]]].
  unfold council_call at 1. cbn [go]. fold (council_call c). fold w1. rewrite HF. cbn [bind]. assert (EX : set_ext w1 (w_ext w1) = w1) by reflexivity. rewrite EX.
  destruct (apart A HA) as (N1 & N2 & N3 & N4 & N5 & N6 & N7 & N8 & N9 & N10 & N11 & N12 & N13 & N14 & N15 & N16 & N17 & N18 & N19 & N20 & N21 & N22 & N23 & N24 & N25 & N26 & N27 & N28).
  unfold handle.
  repeat match goal with |- context [a_council A =? ?b] =>
    lazymatch b with a_council A => fail | _ => rewrite (proj2 (N.eqb_neq (a_council A) b)) by (apply not_eq_sym; assumption) || rewrite (proj2 (N.eqb_neq (a_council A) b)) by assumption end end.
  rewrite N.eqb_refl. change (w_council w1) with (w_council w). set (o := member_oracle_of Out A w1 (w_council w)) in *. rewrite EM. cbn [member_execute multisig_execute]. rewrite E. cbn [bind].
  unfold report. rewrite Hk. cbn [bind]. unfold logged, reseated. cbn. rewrite <- app_assoc. reflexivity.
Qed.

(** what the messages do *)
Record done (w w' : world) (l : list proposal_action) : Prop := mk_done {
  dn_metadata : en_metadata (w_enterprise w') = fold_left renamed (renames l) (en_metadata (w_enterprise w));
  dn_seats : forall u, weight_of (w_council w') u = fold_left in_office l (weight_of (w_council w)) u;
  dn_total : total_now (w_council w') = fold_left seats l (total_now (w_council w));
  dn_ready : council_ready A w';
  dn_enterprise : let n := w_enterprise w in w_enterprise w' =
    mk_enterprise (en_creation n) (en_factory n) (en_versioning n) (en_metadata (w_enterprise w')) (en_version n) (en_type n) (en_finalized n) (en_components n);
  dn_ctl : w_ctl w' = w_ctl w;
  dn_others : (w_gov w', w_member w', w_funds w', w_treasury w', w_outposts w') = (w_gov w, w_member w, w_funds w, w_treasury w, w_outposts w);
  dn_outside : (w_upgraded w', w_ext w') = (w_upgraded w, w_ext w);
  dn_log : exists news, w_log w' = news ++ w_log w
}.

Lemma fold_office l : forall f g : addr -> N, (forall u, f u = g u) -> forall u, fold_left in_office l f u = fold_left in_office l g u.
Proof. induction l as [|a l IH]; intros f g H u; [exact (H u)|]. cbn [fold_left]. apply IH. intros v. destruct a; cbn; auto. Qed.

Lemma named_fine c : fine t (PUpdateCouncil c) -> NoDup (named c) /\ ~ In 0 (named c).
Proof.
  intros (x & V). destruct c as [c|]; cbn [named]; [|split; [constructor|intros []]]. apply validate_council_some in V. destruct V as (V1 & V2 & _). auto.
Qed.

Lemma do_all e l : Forall internal l -> Forall (fine t) l -> forall (w : world), en_wired A (w_enterprise w) -> ct_enterprise (w_ctl w) = a_enterprise A -> council_ready A w ->
  exists k w', go Out A k w e (JSubs (a_controller A) (map plain (deeds l))) = Ok (w', None) /\ done w w' l.
Proof.
  induction l as [|a l IH]; intros H1 H2 w HE HC HR.
  - exists 1%nat, w. split; [reflexivity|]. split; try reflexivity; [exact HR|destruct (w_enterprise w); reflexivity|exists []; reflexivity].
  - inversion H1 as [|? ? Ha Hl]; subst. inversion H2 as [|? ? Fa Fl]; subst. specialize (IH Hl Fl).
    destruct Ha as [Ha|(c & -> & Hc)].
    + destruct a; try (exfalso; exact Ha).
      * set (w1 := described_as A w [u]).
        assert (HE1 : en_wired A (w_enterprise w1)) by (destruct HE as (H3 & att & H4); split; [exact H3|exists att; exact H4]).
        destruct (IH w1 HE1 HC HR) as (k & w' & Hk & D). exists (S (S (S k))), w'. split.
        { cbn [deeds flat_map map app]. eapply go_next; [exact (deliver_one Out A HA HF k w e u HE)|]. exact (go_more Out A _ (S (S k)) _ _ _ _ Hk ltac:(discriminate) ltac:(lia)). }
        destruct D as [D1 D2 D3 D4 D5 D6 D7 D8 (news & D9)]. split; [exact D1|exact D2|exact D3|exact D4|exact D5|exact D6|exact D7|exact D8|].
        exists (news ++ [(a_controller A, enterprise_call A (EnUpdateMetadata u))]). rewrite <- app_assoc. exact D9.
      * destruct (IH w HE HC HR) as (k & w' & Hk & D). exists k, w'. split; [exact Hk|]. destruct D as [D1 D2 D3 D4 D5 D6 D7 D8 D9]. split; assumption.
    + destruct (named_fine c Fa) as (Q1 & Q2).
      destruct (reseat w e c HE HC HR Q1 Q2 Hc) as (k1 & m & news1 & G1 & W1 & T1 & M1 & M2).
      destruct (IH (reseated w m news1) HE HC) as (k & w' & Hk & D); [exists m; split; [reflexivity|split; [exact M1|exact M2]]|].
      exists (S (k1 + k)), w'. split.
      { cbn [deeds flat_map map app]. eapply go_next.
        - exact (go_more Out A _ (k1 + k)%nat _ _ _ _ G1 ltac:(discriminate) ltac:(lia)).
        - exact (go_more Out A _ (k1 + k)%nat _ _ _ _ Hk ltac:(discriminate) ltac:(lia)). }
      destruct D as [D1 D2 D3 D4 D5 D6 D7 D8 (news & D9)]. split; try assumption.
      * intros u. rewrite D2. cbn [fold_left]. apply fold_office. intros v. cbn [in_office]. exact (W1 v).
      * rewrite D3. cbn [fold_left seats]. f_equal. exact T1.
      * exists (news ++ news1). rewrite <- app_assoc. exact D9.
Qed.

Lemma internal_take_effect (w : world) e id p : fits A t w -> council_ready A w -> oget (ct_proposals (w_ctl w)) id = Some p -> Forall internal (pi_actions p) ->
  exists k w', go Out A k w e (JMsg (a_controller A) (run_order A id)) = Ok (w', None) /\ carried A w w' id (pi_actions p).
Proof.
  intros [F1 F2 F3 (S1 & S2 & S3)] HR Hp HH. pose proof (S3 _ _ Hp) as HFi.
  set (w1 := note w (a_controller A) (run_order A id)).
  set (w2 := set_ctl w1 (with_council (with_config (w_ctl w) (fold_left ruled (pi_actions p) (ct_config (w_ctl w)))) (fold_left seated (pi_actions p) (ct_council (w_ctl w))))).
  destruct (do_all e (pi_actions p) HH HFi w2 F1 F2 HR) as (k & w' & Hk & D).
  exists (S k), w'. split.
  - unfold run_order at 1. cbn [go]. change (note w (a_controller A) (WasmExecute (a_controller A) (ToController (CExecuteActions id)) [])) with w1.
    rewrite HF. cbn [bind]. assert (EX : set_ext w1 (w_ext w1) = w1) by reflexivity. rewrite EX.
    unfold handle. rewrite N.eqb_refl. cbn [ctl_execute]. unfold execute_actions. rewrite N.eqb_refl. cbn [guard bind].
    change (w_ctl w1) with (w_ctl w). rewrite Hp. cbn [ok_or bind].
    destruct (components_wired A w1 F1) as (att & HC).
    rewrite (internal_run (ctl_oracle_of Out A w1) att (pi_actions p)); [|cbn; rewrite F2; exact HC|exact (proj1 (type_answer Out A t w1 F2 F3))|exact HH|exact HFi|exact F2|exact S1].
    cbn [bind app]. fold w2. rewrite Hk. reflexivity.
  - destruct D as [D1 D2 D3 D4 D5 D6 D7 D8 (news & D9)]. split; try assumption; try (rewrite D6; reflexivity). exists news. exact D9.
Qed.
End Carry.
