(** Lemmas about a whole DAO. *)
From Verif Require Import Base OMap OMapLemmas Assets PollModel PollSpec PollProofs PollFacts FundsModel MemberModel MemberSpec
  MemberProofs MemberFacts Msgs ControllerModel ControllerSpec ControllerProofs ControllerFacts TreasuryModel EnterpriseModel
  EnterpriseSpec EnterpriseFacts OutpostsModel WorldModel WorldSpec WorldMember.

(** Take apart a pair-binding. *)
Ltac pb H := let p := fresh "p" in apply bind_ok in H; destruct H as (p & ? & H); repeat match type of H with
  | (let '(_, _) := ?x in _) = _ => destruct x
  end.

Section W.
Context {X : Type}.
Variable Out : outside X.
Variable A : addrs.
Hypothesis HA : NoDup (dao_addrs A).

Local Notation world := (world X).
Local Notation go := (go Out A).
Local Notation handle := (handle Out A).
Local Notation on_reply := (on_reply Out A).
Local Notation other_msg := (other_msg Out A).
Local Notation oracle := (ctl_oracle_of Out A).
Local Notation ctl_addr := (a_controller A).
Local Notation gov_addr := (a_governance A).
Local Notation member_addr := (a_membership A).

(** * The contracts have different addresses *)

Ltac apart := let H := fresh in pose proof HA as H; unfold dao_addrs in H;
  repeat match goal with H : NoDup (_ :: _) |- _ => inversion H; clear H; subst end; cbn [In] in *; intros ?; intuition congruence.

Lemma gov_not_ctl : gov_addr <> ctl_addr. Proof. apart. Qed.
Lemma member_not_ctl : member_addr <> ctl_addr. Proof. apart. Qed.
Lemma member_not_gov : member_addr <> gov_addr. Proof. apart. Qed.
Lemma council_not_member : a_council A <> member_addr. Proof. apart. Qed.
Lemma enterprise_not_ctl : a_enterprise A <> ctl_addr. Proof. apart. Qed.
Lemma treasury_not_ctl : a_treasury A <> ctl_addr. Proof. apart. Qed.
Lemma funds_apart : a_funds A <> ctl_addr /\ a_funds A <> gov_addr /\ a_funds A <> member_addr.
Proof. repeat split; apart. Qed.
Lemma outposts_apart : a_outposts A <> ctl_addr /\ a_outposts A <> gov_addr /\ a_outposts A <> member_addr.
Proof. repeat split; apart. Qed.
Lemma treasury_apart : a_treasury A <> ctl_addr /\ a_treasury A <> gov_addr /\ a_treasury A <> member_addr.
Proof. repeat split; apart. Qed.
Lemma enterprise_apart : a_enterprise A <> ctl_addr /\ a_enterprise A <> gov_addr /\ a_enterprise A <> member_addr.
Proof. repeat split; apart. Qed.
Lemma council_apart : a_council A <> ctl_addr /\ a_council A <> gov_addr /\ a_council A <> member_addr.
Proof. repeat split; apart. Qed.

(** * Unfolding delivery *)

Lemma go_msg n w e s m w' d : go (S n) w e (JMsg s m) = Ok (w', d) ->
  (exists to wm coins x w1 subs d', m = WasmExecute to wm coins /\ x_pay Out (w_ext w) s to coins = Ok x /\
     handle n (set_ext (note w s m) x) e s to wm coins = Ok (w1, subs, d) /\ go n w1 e (JSubs to subs) = Ok (w', d')) \/
  ((forall to wm coins, m <> WasmExecute to wm coins) /\ other_msg (note w s m) e s m = Ok (w', d)).
Proof.
  cbn [WorldModel.go]. destruct m; intros H; try (right; split; [discriminate|exact H]). left.
  apply bind_ok in H. destruct H as (x & Hx & H). apply bind_ok in H. destruct H as ([[w1 subs] d1] & Hh & H).
  apply bind_ok in H. destruct H as ([w2 d2] & Hg & H). inversion H; subst.
  do 7 eexists. split; [reflexivity|]. split; [exact Hx|]. split; [exact Hh|exact Hg].
Qed.

Lemma go_nil n w e self w' d : go n w e (JSubs self []) = Ok (w', d) -> w' = w /\ d = None.
Proof. destruct n; cbn [WorldModel.go]; intros H; inversion H; auto. Qed.

Lemma go_cons n w e self x rest w' d : go n w e (JSubs self (x :: rest)) = Ok (w', d) ->
  exists n', n = S n' /\
  ((exists w1 d1, go n' w e (JMsg self (sm_msg x)) = Ok (w1, d1) /\
     ((sm_reply x = ReplyNever /\ go n' w1 e (JSubs self rest) = Ok (w', d)) \/
      exists id w2 more w3 d3, (sm_reply x = ReplySuccess id \/ sm_reply x = ReplyAlways id) /\
        on_reply w1 e self id (ROk d1) = Ok (w2, more) /\ go n' w2 e (JSubs self more) = Ok (w3, d3) /\
        go n' w3 e (JSubs self rest) = Ok (w', d))) \/
   (exists id w2 more w3 d3, (exists er, go n' w e (JMsg self (sm_msg x)) = Err er) /\ sm_reply x = ReplyAlways id /\
        on_reply w e self id RErr = Ok (w2, more) /\ go n' w2 e (JSubs self more) = Ok (w3, d3) /\
        go n' w3 e (JSubs self rest) = Ok (w', d))).
Proof.
  destruct n as [|n]; [discriminate|]. intros H. exists n. split; [reflexivity|]. cbn [WorldModel.go] in H.
  destruct (go n w e (JMsg self (sm_msg x))) as [[w1 d1]|er] eqn:E.
  - left. exists w1, d1. split; [reflexivity|]. destruct (sm_reply x) as [|id|id] eqn:ER; [left; auto|right..].
    all: apply bind_ok in H; destruct H as ([w2 more] & H1 & H); apply bind_ok in H; destruct H as ([w3 d3] & H2 & H);
      exists id, w2, more, w3, d3; auto 6.
  - right. assert (HR : exists id, sm_reply x = ReplyAlways id /\
      ('(w, more) <- on_reply w e self id RErr ;; '(w, _) <- go n w e (JSubs self more) ;; go n w e (JSubs self rest)) = Ok (w', d)).
    { destruct er, (sm_reply x) as [|id|id]; try discriminate H; exists id; auto. }
    clear H. destruct HR as (id & HR & H).
    apply bind_ok in H; destruct H as ([w2 more] & H1 & H); apply bind_ok in H; destruct H as ([w3 d3] & H2 & H).
    exists id, w2, more, w3, d3. eauto 8.
Qed.

(** * What a call, a reply or another message touches *)

Definition en_wired (en : enterprise) : Prop :=
  en_finalized en = true /\ exists att, en_components en = Some (wiring_of A att).

(** The controller, the governance and the membership contract are as before, and so is the wiring. *)
Definition quiet (w w1 : world) : Prop :=
  w_ctl w1 = w_ctl w /\ w_gov w1 = w_gov w /\ w_member w1 = w_member w /\ w_log w1 = w_log w /\
  (en_wired (w_enterprise w) -> en_wired (w_enterprise w1)) /\ (small (w_council w) -> small (w_council w1)).

Ltac still := repeat (split; [reflexivity|]); auto.
Lemma quiet_refl w : quiet w w. Proof. still. Qed.
Lemma quiet_trans w w1 w2 : quiet w w1 -> quiet w1 w2 -> quiet w w2.
Proof. intros (A1 & A2 & A3 & A4 & A5 & A6) (B1 & B2 & B3 & B4 & B5 & B6). repeat (split; [congruence|]). auto. Qed.
Lemma quiet_ext w x : quiet w (set_ext w x). Proof. still. Qed.

Lemma en_wired_keeps e v e' out : en_handle e v = Ok (e', out) -> en_wired e -> en_wired e'.
Proof.
  intros H (Hf & att & Hc).
  assert (Hok : en_ok e) by (unfold en_ok; rewrite Hf, Hc; reflexivity).
  destruct (en_wired_step _ _ _ _ _ Hok Hc H) as (_ & _ & _ & F & c' & Hc' & (W1 & W2 & W3 & W4 & W5 & W6 & W7) & _).
  split; [exact F|]. exists (c_attestation c'). rewrite Hc'. f_equal. destruct c'; cbn in *. unfold wiring_of. congruence.
Qed.

Lemma handle_cases n w e s to m coins w1 subs d :
  handle n w e s to m coins = Ok (w1, subs, d) ->
  (to = ctl_addr /\ exists cm s', m = ToController cm /\ ctl_execute (oracle w) ctl_addr (w_ctl w) e s coins cm = Ok (s', subs) /\
     w1 = set_ctl w s' /\ d = None) \/
  (to = gov_addr /\ exists gm g, m = ToGovernance gm /\ gov_execute (w_gov w) e s gm = Ok (g, d) /\ w1 = set_gov w g /\ subs = []) \/
  (to = member_addr /\ exists mm s' outs, m = ToMembership mm /\
     member_execute (member_oracle_of Out A w (w_member w)) (w_member w) e s coins mm = Ok (s', outs) /\
     w1 = set_member w s' /\ subs = map member_sub outs /\ d = None) \/
  (to <> ctl_addr /\ to <> gov_addr /\ to <> member_addr /\ quiet w w1).
Proof.
  unfold WorldModel.handle. intros H.
  destruct (N.eqb_spec to ctl_addr) as [->|N1].
  { left. split; [reflexivity|]. destruct m; try discriminate. pb H. inversion H; subst. eauto 8. }
  destruct (N.eqb_spec to gov_addr) as [->|N2].
  { right; left. split; [reflexivity|]. destruct m; try discriminate. pb H. inversion H; subst. eauto 8. }
  destruct (N.eqb_spec to member_addr) as [->|N3].
  { right; right; left. split; [reflexivity|]. destruct m; try discriminate. pb H. inversion H; subst. eauto 10. }
  right; right; right. split; [exact N1|]. split; [exact N2|]. split; [exact N3|].
  destruct (N.eqb_spec to (a_council A)) as [->|N4].
  { destruct m; try discriminate. pb H. inversion H; subst. repeat (split; [reflexivity|]). split; [auto|]. cbn. intros HS.
    exact (accepts_small (w_council w) (mk_mcall (member_oracle_of Out A w (w_council w)) e s coins m) _ _ HS H0). }
  destruct (N.eqb_spec to (a_funds A)) as [->|N5].
  { destruct m; try discriminate. pb H. inversion H; subst. still. }
  destruct (N.eqb_spec to (a_treasury A)) as [->|N6].
  { destruct m; try discriminate. pb H. inversion H; subst. still. }
  destruct (N.eqb_spec to (a_enterprise A)) as [->|N7].
  { destruct m; try discriminate. pb H. inversion H; subst. repeat (split; [reflexivity|]). cbn. split; [|auto].
    eapply (en_wired_keeps _ (EvCall _ _ _)). eassumption. }
  destruct (N.eqb_spec to (a_outposts A)) as [->|N8].
  { destruct m; try discriminate. pb H. inversion H; subst. still. }
  pb H. inversion H; subst. apply quiet_ext.
Qed.

Lemma reply_cases w e self id r w1 more :
  on_reply w e self id r = Ok (w1, more) ->
  (self = ctl_addr /\ exists s', ctl_reply (oracle w) ctl_addr (w_ctl w) e id r = Ok (s', more) /\ w1 = set_ctl w s') \/
  (self <> ctl_addr /\ quiet w w1).
Proof.
  unfold WorldModel.on_reply. intros H. destruct (N.eqb_spec self ctl_addr) as [->|N1].
  { left. split; [reflexivity|]. pb H. inversion H; subst. eauto. }
  right. split; [exact N1|].
  destruct (self =? a_enterprise A).
  { pb H. inversion H; subst. repeat (split; [reflexivity|]). cbn. split; [|auto]. eapply (en_wired_keeps _ (EvReply _ _)). eassumption. }
  destruct (self =? a_treasury A).
  { pb H. inversion H; subst. still. }
  destruct (is_dao A self); [discriminate|].
  pb H. inversion H; subst. apply quiet_ext.
Qed.

Lemma migrate_cases w a code w1 : migrate_to Out A w a code = Ok w1 -> w1 = w \/ w1 = set_upgraded w.
Proof.
  unfold migrate_to. intros H. destruct (plain_migration Out A w a code); [inversion H; auto|].
  destruct (same_code Out A w a code && (a =? a_enterprise A)); [|inversion H; auto].
  pb H. destruct (forallb _ _); inversion H; auto.
Qed.

Lemma other_quiet w e s m w1 d : other_msg w e s m = Ok (w1, d) -> quiet w w1.
Proof.
  unfold WorldModel.other_msg. intros H.
  destruct m; try (destruct (is_dao A contract)); pb H; inversion H; subst; try apply quiet_ext; [|still].
  apply bind_ok in H. destruct H as (w2 & E & H). inversion H; subst. apply migrate_cases in E. destruct E; subst; still.
Qed.

(** * The log only grows *)

Lemma handle_log n w e s to m coins w1 subs d : handle n w e s to m coins = Ok (w1, subs, d) -> w_log w1 = w_log w.
Proof.
  intros H. apply handle_cases in H.
  destruct H as [(_ & cm & s' & _ & _ & -> & _)|[(_ & gm & g & _ & _ & -> & _)|[(_ & mm & s' & outs & _ & _ & -> & _)|(_ & _ & _ & Q)]]];
    try reflexivity. apply Q.
Qed.
Lemma reply_log w e self id r w1 more : on_reply w e self id r = Ok (w1, more) -> w_log w1 = w_log w.
Proof. intros H. apply reply_cases in H. destruct H as [(_ & s' & _ & ->)|(_ & Q)]; [reflexivity|apply Q]. Qed.

Lemma go_log n : forall w e j w' d, go n w e j = Ok (w', d) -> exists l, w_log w' = l ++ w_log w.
Proof.
  induction n as [|n IH]; intros w e j w' d H; [destruct j; discriminate|].
  destruct j as [s m|self [|x rest]].
  - apply go_msg in H. destruct H as [(to & wm & coins & x & w1 & subs & d' & -> & _ & Hh & Hg)|(_ & Ho)].
    + apply IH in Hg. destruct Hg as (l & ->). apply handle_log in Hh. rewrite Hh. cbn.
      exists (l ++ [(s, WasmExecute to wm coins)]). rewrite <- app_assoc. reflexivity.
    + apply other_quiet in Ho. destruct Ho as (_ & _ & _ & -> & _ & _). cbn. exists [(s, m)]. reflexivity.
  - apply go_nil in H. destruct H as [-> _]. exists []. reflexivity.
  - apply go_cons in H. destruct H as (n' & E & H). injection E as <-.
    destruct H as [(w1 & d1 & H1 & [(_ & H2)|(id & w2 & more & w3 & d3 & _ & H2 & H3 & H4)])|(id & w2 & more & w3 & d3 & _ & _ & H2 & H3 & H4)].
    + apply IH in H1, H2. destruct H1 as (l1 & E1), H2 as (l2 & E2). exists (l2 ++ l1). rewrite E2, E1, app_assoc. reflexivity.
    + apply IH in H1, H3, H4. apply reply_log in H2. destruct H1 as (l1 & E1), H3 as (l3 & E3), H4 as (l4 & E4).
      exists (l4 ++ l3 ++ l1). rewrite E4, E3, H2, E1, !app_assoc. reflexivity.
    + apply IH in H3, H4. apply reply_log in H2. destruct H3 as (l3 & E3), H4 as (l4 & E4).
      exists (l4 ++ l3). rewrite E4, E3, H2, !app_assoc. reflexivity.
Qed.

Definition size (w : world) : N := N.of_nat (length (w_log w)).

Lemma go_size n w e j w' d : go n w e j = Ok (w', d) -> size w <= size w'.
Proof. intros H. apply go_log in H. destruct H as (l & E). unfold size. rewrite E, app_length. lia. Qed.

(** * A message to the governance contract *)

Definition gov_msg_of (m : gov_msg) : cosmos_msg := WasmExecute gov_addr (ToGovernance m) [].

(** the world right after the controller's message [m] was handled by the governance contract *)
Definition after_gov (w : world) (m : gov_msg) (x : X) (g : gov) : world :=
  set_gov (set_ext (note w ctl_addr (gov_msg_of m)) x) g.

Lemma go_gov_msg n w e m w' d : go n w e (JMsg ctl_addr (gov_msg_of m)) = Ok (w', d) ->
  exists x g, gov_execute (w_gov w) e ctl_addr m = Ok (g, d) /\ w' = after_gov w m x g.
Proof.
  destruct n; [discriminate|]. intros H. apply go_msg in H.
  destruct H as [(to & wm & coins & x & w1 & subs & d' & E & _ & Hh & Hg)|(N & _)]; [|destruct (N _ _ _ eq_refl)].
  injection E as <- <- <-. apply handle_cases in Hh.
  destruct Hh as [(E & _)|[(_ & gm & g & E & He & -> & ->)|[(E & _)|(_ & E & _)]]].
  - destruct (gov_not_ctl E).
  - injection E as <-. apply go_nil in Hg. destruct Hg as [-> _]. exists x, g. split; [exact He|reflexivity].
  - destruct (member_not_gov (eq_sym E)).
  - destruct (E eq_refl).
Qed.

Lemma go_gov n w e m k rest w' d :
  go n w e (JSubs ctl_addr (mk_sub (gov_msg_of m) (ReplySuccess k) :: rest)) = Ok (w', d) ->
  exists n' x g dd s more w3 d3, n = S n' /\ gov_execute (w_gov w) e ctl_addr m = Ok (g, dd) /\
    ctl_reply (oracle (after_gov w m x g)) ctl_addr (w_ctl w) e k (ROk dd) = Ok (s, more) /\
    go n' (set_ctl (after_gov w m x g) s) e (JSubs ctl_addr more) = Ok (w3, d3) /\
    go n' w3 e (JSubs ctl_addr rest) = Ok (w', d).
Proof.
  intros H. apply go_cons in H. destruct H as (n' & -> & H). exists n'. cbn [sm_msg sm_reply] in H.
  destruct H as [(w1 & d1 & H1 & [(N & _)|(id & w2 & more & w3 & d3 & E & H2 & H3 & H4)])|(id & w2 & more & w3 & d3 & _ & N & _)]; try discriminate.
  assert (k = id) as <- by (destruct E as [E|E]; congruence).
  apply go_gov_msg in H1. destruct H1 as (x & g & He & ->). apply reply_cases in H2.
  destruct H2 as [(_ & s' & Hr & ->)|(N & _)]; [|congruence].
  exists x, g, d1, s', more, w3, d3. auto.
Qed.

Lemma go_gov_plain n w e m rest w' d :
  go n w e (JSubs ctl_addr (plain (gov_msg_of m) :: rest)) = Ok (w', d) ->
  exists n' x g dd, n = S n' /\ gov_execute (w_gov w) e ctl_addr m = Ok (g, dd) /\
    go n' (after_gov w m x g) e (JSubs ctl_addr rest) = Ok (w', d).
Proof.
  intros H. apply go_cons in H. destruct H as (n' & -> & H). exists n'. cbn [sm_msg sm_reply plain] in H.
  destruct H as [(w1 & d1 & H1 & [(_ & H2)|(id & w2 & more & w3 & d3 & [E|E] & _)])|(id & w2 & more & w3 & d3 & _ & N & _)]; try discriminate.
  apply go_gov_msg in H1. destruct H1 as (x & g & He & ->). exists x, g, d1. auto.
Qed.

(** * The wiring, and the records of the controller *)

Record wired (w : world) : Prop := mk_wired {
  wi_en : en_wired (w_enterprise w);
  wi_of : ct_enterprise (w_ctl w) = a_enterprise A;
  wi_admin : g_admin (w_gov w) = ctl_addr;
  wi_ids : forall id p, oget (ct_proposals (w_ctl w)) id = Some p -> 1 <= id <= g_count (w_gov w);
  wi_count : g_count (w_gov w) <= size w
}.

Lemma wired_components w : wired w -> exists att, co_components (oracle w) = Ok (wiring_of A att).
Proof.
  intros [(_ & att & Hc) Ho _ _ _]. exists att. cbn. unfold components_by, enterprise_at. rewrite Ho, N.eqb_refl. cbn [bind].
  unfold query_component_contracts. rewrite Hc. reflexivity.
Qed.

Lemma quiet_components w w1 : quiet w w1 -> wired w -> exists att, co_components (oracle w1) = Ok (wiring_of A att).
Proof.
  intros (Q1 & Q2 & Q3 & Q4 & Q5 & Q6) [He Ho _ _ _]. apply Q5 in He. destruct He as (_ & att & Hc). exists att. cbn.
  unfold components_by, enterprise_at. rewrite Q1, Ho, N.eqb_refl. cbn [bind]. unfold query_component_contracts. rewrite Hc. reflexivity.
Qed.

Definition kept (w w' : world) : Prop :=
  size w <= size w' /\ g_count (w_gov w) <= g_count (w_gov w') /\
  forall id p, oget (ct_proposals (w_ctl w)) id = Some p ->
    exists p', oget (ct_proposals (w_ctl w')) id = Some p' /\ content p' = content p /\
               (forall b, pi_executed_at p = Some b -> pi_executed_at p' = Some b).

Lemma kept_refl w : kept w w.
Proof. split; [lia|]. split; [lia|]. intros id p H. exists p. auto. Qed.
Lemma kept_trans w w1 w2 : kept w w1 -> kept w1 w2 -> kept w w2.
Proof.
  intros (A1 & A2 & A3) (B1 & B2 & B3). split; [lia|]. split; [lia|]. intros id p H.
  destruct (A3 _ _ H) as (p1 & H1 & E1 & F1). destruct (B3 _ _ H1) as (p2 & H2 & E2 & F2). exists p2.
  split; [exact H2|]. split; [congruence|]. auto.
Qed.

Lemma quiet_wired w w1 : quiet w w1 -> wired w -> wired w1 /\ kept w w1.
Proof.
  intros (Q1 & Q2 & Q3 & Q4 & Q5 & Q6) [H1 H2 H3 H4 H5]. split.
  - split; unfold size in *; rewrite ?Q1, ?Q2, ?Q4; auto.
  - unfold kept, size. rewrite Q1, Q2, Q4. split; [lia|]. split; [lia|]. intros id p H. exists p. auto.
Qed.

Lemma size_note w s m : size (note w s m) = size w + 1.
Proof. unfold size. cbn [note w_log length]. lia. Qed.

Lemma note_wired w s m : wired w -> wired (note w s m) /\ kept w (note w s m).
Proof.
  intros [H1 H2 H3 H4 H5]. split.
  - split; try assumption. rewrite size_note. cbn. lia.
  - split; [rewrite size_note; lia|]. split; [cbn; lia|]. intros id p H. exists p. auto.
Qed.

Lemma member_wired w s : wired w -> wired (set_member w s) /\ kept w (set_member w s).
Proof.
  intros [H1 H2 H3 H4 H5]. split; [split; assumption|]. split; [unfold size; cbn; lia|]. split; [cbn; lia|].
  intros id p H. exists p. auto.
Qed.

(** the poll counter goes up by one at most *)
Lemma gov_count g e s m g' d : g_count g + 1 < M64 -> gov_execute g e s m = Ok (g', d) ->
  g_count g <= g_count g' <= g_count g + 1 /\ g_admin g' = g_admin g /\
  (forall id, d = Some id -> id = g_count g + 1 /\ g_count g' = id).
Proof.
  intros Hc H. pose proof (execute_admin _ _ _ _ _ _ H) as Ha. apply gov_execute_ok in H. destruct H as [_ H]. destruct m.
  - destruct H as (id & H & ->). unfold create_poll in H. bind_inv H. inversion H; subst; clear H. cbn.
    assert (E : u64_add (g_count g) 1 = g_count g + 1) by (unfold u64_add; apply N.mod_small; lia). rewrite E.
    split; [lia|]. split; [reflexivity|]. intros i Hi. inversion Hi. auto.
  - destruct H as [H ->]. apply cast_count in H. split; [lia|]. split; [assumption|]. intros i Hi. discriminate.
  - destruct H as [H ->]. apply update_count in H. split; [lia|]. split; [assumption|]. intros i Hi. discriminate.
  - destruct H as [H ->]. apply end_poll_ok in H. destruct H as (p & _ & -> & _). cbn. split; [lia|]. split; [reflexivity|]. intros i Hi. discriminate.
Qed.

Lemma after_gov_wired w e m x g d : wired w -> size w + 1 < M64 -> gov_execute (w_gov w) e ctl_addr m = Ok (g, d) ->
  wired (after_gov w m x g) /\ kept w (after_gov w m x g).
Proof.
  intros [H1 H2 H3 H4 H5] Hs H. apply gov_count in H; [|lia]. destruct H as (C1 & C2 & _). split.
  - split; try assumption.
    + cbn. congruence.
    + intros id p Hp. cbn in *. apply H4 in Hp. lia.
    + unfold after_gov, size in *. cbn [set_gov w_gov w_log set_ext note length] in *. lia.
  - split; [unfold after_gov, size; cbn [set_gov w_log set_ext note length]; lia|]. split; [cbn; lia|].
    intros id p Hp. exists p. auto.
Qed.

(** * What a call of the controller leads to *)

Definition ctl_scene (w : world) (s : ctl) : Prop :=
  ct_proposals s = ct_proposals (w_ctl w) /\ ct_enterprise s = ct_enterprise (w_ctl w).

Lemma scene_wired w s : ctl_scene w s -> wired w -> wired (set_ctl w s) /\ kept w (set_ctl w s).
Proof.
  intros (E1 & E2) [H1 H2 H3 H4 H5]. split.
  - split; try assumption; cbn; rewrite ?E1, ?E2; assumption.
  - split; [unfold size; cbn; lia|]. split; [cbn; lia|]. intros id p Hp. exists p. cbn. rewrite E1. auto.
Qed.

(** A message of the controller that neither itself nor the governance contract would understand, nor ... *)
Definition safe (m : cosmos_msg) : Prop :=
  match m with
  | WasmExecute to wm _ =>
      (to = ctl_addr -> forall cm, wm <> ToController cm) /\ (to = gov_addr -> forall gm, wm <> ToGovernance gm) /\
      (to = member_addr -> forall mm, wm = ToMembership mm -> tame_member mm = true)
  | _ => True
  end.

Lemma safe_to to wm coins : to <> ctl_addr /\ to <> gov_addr /\ to <> member_addr -> safe (WasmExecute to wm coins).
Proof. intros (H1 & H2 & H3). cbn. repeat split; intros; congruence. Qed.

Lemma harmless_safe m : harmless A m -> safe m.
Proof. destruct m; cbn; auto. intros H. exact (safe_to _ m funds H). Qed.

Definition creates (m : controller_msg) : Prop :=
  match m with CCreateProposal _ _ | CCreateProposalNft _ _ _ | CCreateCouncilProposal _ | CReceive _ _ _ => True | _ => False end.

(** no change of the reward weights *)
Definition modest (m : cosmos_msg) : Prop := forall ch coins, m <> WasmExecute (a_funds A) (ToFunds (FUpdateUserWeights ch)) coins.
Definition mild (m : cosmos_msg) : Prop := safe m /\ modest m.

Lemma mild_to to wm coins : (forall ch, wm <> ToFunds (FUpdateUserWeights ch)) -> to <> ctl_addr /\ to <> gov_addr /\ to <> member_addr ->
  mild (WasmExecute to wm coins).
Proof. intros H1 H2. split; [exact (safe_to _ _ _ H2)|]. intros ch c E. injection E as _ E _. exact (H1 _ E). Qed.

Inductive opening (o : ctl_oracle) (s : ctl) (sender : addr) : controller_msg -> ctl -> list sub_msg -> Prop :=
| op_create m c info rest : creates m -> pi_executed_at info = None -> pi_earliest info = None ->
    (pi_type info = Council -> pi_deposit info = None) -> cp_deposit c = 0 ->
    Forall (fun x => exists to t, x = plain (WasmExecute to (ToCw721 (Cw721Transfer ctl_addr t)) [])) rest ->
    opening o s sender m (with_creating s (Some info)) (mk_sub (gov_msg_of (GCreatePoll c)) (ReplySuccess 1) :: rest)
| op_vote id p k out amount : oget (ct_proposals s) id = Some p -> pi_type p = General ->
    co_weight o member_addr sender = Ok amount ->
    opening o s sender (CCastVote id out) (with_voting s (Some (id, k)))
      [mk_sub (gov_msg_of (GCastVote id out sender amount)) (ReplySuccess 4)]
| op_council_vote id p out amount : oget (ct_proposals s) id = Some p -> pi_type p = Council ->
    co_weight o (a_council A) sender = Ok amount ->
    opening o s sender (CCastCouncilVote id out) s [plain (gov_msg_of (GCastVote id out sender amount))]
| op_execute id p total early : oget (ct_proposals s) id = Some p -> pi_executed_at p = None ->
    opening o s sender (CExecuteProposal id) (with_executing s (Some id))
      [mk_sub (gov_msg_of (GEndPoll id total false early)) (ReplySuccess 2)]
| op_weights changes : sender = member_addr ->
    opening o s sender (CWeightsChanged changes) s
      (map (fun ch => plain (gov_msg_of (GUpdateVotes (wc_user ch) (wc_new ch)))) changes
       ++ [plain (WasmExecute (a_funds A) (ToFunds (FUpdateUserWeights (map (fun ch => (wc_user ch, wc_new ch)) changes))) [])])
| op_actions id p s' subs : sender = ctl_addr -> oget (ct_proposals s) id = Some p ->
    ct_proposals s' = ct_proposals s -> ct_enterprise s' = ct_enterprise s ->
    Forall (fun x => sm_reply x = ReplyNever /\ (In (sm_msg x) (customs p) \/ (mild (sm_msg x) /\ payment ctl_addr (sm_msg x) = []))) subs ->
    opening o s sender (CExecuteActions id) s' subs
| op_other m s' subs : (m = CDeployInitial \/ exists ch, m = CWeightsChanged ch /\ sender = a_council A) -> ct_proposals s' = ct_proposals s -> ct_enterprise s' = ct_enterprise s ->
    Forall (fun x => sm_reply x = ReplyNever /\ mild (sm_msg x) /\ payment ctl_addr (sm_msg x) = []) subs ->
    opening o s sender m s' subs.

Lemma take_forall o nft sender tokens takes : map_res (take_nft o ctl_addr nft sender) tokens = Ok takes ->
  Forall (fun x => exists to t, x = plain (WasmExecute to (ToCw721 (Cw721Transfer ctl_addr t)) [])) takes.
Proof.
  revert takes. induction tokens as [|a t IH]; intros l H; cbn [map_res] in H; cb; [constructor|].
  constructor; [|apply IH; assumption]. unfold take_nft in *. cb. eauto.
Qed.

Lemma action_safe o s a s' subs att : co_components o = Ok (wiring_of A att) -> ct_enterprise s = a_enterprise A ->
  run_action o s a = Ok (s', subs) ->
  Forall (fun x => sm_reply x = ReplyNever /\
    ((exists msgs, a = PExecuteMsgs msgs /\ In (Some (sm_msg x)) msgs) \/ (mild (sm_msg x) /\ payment ctl_addr (sm_msg x) = []))) subs.
Proof.
  intros HC HE H.
  assert (S1 : forall m, Forall (fun x => sm_reply x = ReplyNever /\
    ((exists msgs, a = PExecuteMsgs msgs /\ In (Some (sm_msg x)) msgs) \/ (mild (sm_msg x) /\ payment ctl_addr (sm_msg x) = [])))
    [plain (WasmExecute (ct_enterprise s) (ToEnterprise m) [])]).
  { intros m. constructor; [|constructor]. split; [reflexivity|]. right. split; [|reflexivity]. cbn [plain sm_msg].
    apply mild_to; [discriminate|]. rewrite HE. apply enterprise_apart. }
  assert (S2 : forall m target x, to_treasury o m target = Ok x -> Forall (fun x => sm_reply x = ReplyNever /\
    ((exists msgs, a = PExecuteMsgs msgs /\ In (Some (sm_msg x)) msgs) \/ (mild (sm_msg x) /\ payment ctl_addr (sm_msg x) = []))) [x]).
  { intros m target x Hx. unfold to_treasury in Hx. rewrite HC in Hx. cbn [bind] in Hx. injection Hx as <-.
    constructor; [|constructor]. split; [reflexivity|]. right. destruct target; (split; [|reflexivity]); cbn [plain sm_msg]; (apply mild_to; [discriminate|]);
      [apply outposts_apart|apply treasury_apart]. }
  destruct a; cbn [run_action] in H.
  - inversion H; subst. apply S1.
  - unfold act_gov_config in H. rewrite HC in H. cb. 
    assert (SM : forall mm, tame_member mm = true -> Forall (fun x => sm_reply x = ReplyNever /\
      ((exists msgs, PUpdateGovConfig u = PExecuteMsgs msgs /\ In (Some (sm_msg x)) msgs) \/ (mild (sm_msg x) /\ payment ctl_addr (sm_msg x) = [])))
      [plain (WasmExecute member_addr (ToMembership mm) [])]).
    { intros mm Hm. constructor; [|constructor]. split; [reflexivity|]. right. split; [|reflexivity]. cbn [plain sm_msg]. split; [|discriminate]. cbn.
      split; [discriminate|]. split; [discriminate|]. intros _ mm' E. injection E as <-. exact Hm. }
    match goal with H : _ = Ok subs |- _ => rename H into HM end.
    destruct (gu_unlocking_period u); cb; [|constructor].
    destruct x; [apply SM; reflexivity..|constructor].
  - unfold act_council in H. rewrite HC in H. cb. constructor; [|constructor]. split; [reflexivity|]. right. split; [|reflexivity].
    apply mild_to; [discriminate|]. apply council_apart.
  - cb. eapply S2; eassumption.
  - cb. eapply S2; eassumption.
  - cb. eapply S2; eassumption.
  - cb. apply S1.
  - cb. apply Forall_forall. intros y Hy. apply in_map_iff in Hy. destruct Hy as (m & <- & Hm). split; [reflexivity|]. left.
    exists msgs. split; [reflexivity|]. cbn. match goal with H : parse_msgs _ = Ok _ |- _ => apply map_some_parse in H end. subst. apply in_map. exact Hm.
  - cb. eapply S2; eassumption.
  - inversion H; subst. apply S1.
  - rewrite HC in H. cb. constructor; [|constructor]. split; [reflexivity|]. right. split; [|reflexivity]. cbn [plain sm_msg]. split; [|discriminate]. cbn.
    split; [discriminate|]. split; [discriminate|]. intros _ mm' E. injection E as <-. reflexivity.
  - rewrite HC in H. cb. constructor; [|constructor]. split; [reflexivity|]. right. split; [|reflexivity]. apply mild_to; [discriminate|apply treasury_apart].
  - rewrite HC in H. cb. constructor; [|constructor]. split; [reflexivity|]. right. split; [|reflexivity]. apply mild_to; [discriminate|apply funds_apart].
  - rewrite HC in H. cb. constructor; [|constructor]. split; [reflexivity|]. right. split; [|reflexivity]. apply mild_to; [discriminate|apply outposts_apart].
Qed.

Lemma actions_safe o att : co_components o = Ok (wiring_of A att) -> forall l s acc s' subs,
  ct_enterprise s = a_enterprise A ->
  fold_res (run_action_acc o) (s, acc) l = Ok (s', subs) ->
  exists new, subs = acc ++ new /\
  Forall (fun x => sm_reply x = ReplyNever /\
    ((exists msgs, In (PExecuteMsgs msgs) l /\ In (Some (sm_msg x)) msgs) \/ (mild (sm_msg x) /\ payment ctl_addr (sm_msg x) = []))) new.
Proof.
  intros HC. induction l as [|a l IH]; intros s acc s' subs HE H; cbn [fold_res] in H.
  - inversion H; subst. exists []. split; [symmetry; apply app_nil_r|constructor].
  - unfold run_action_acc in H at 1. cbn [fst snd] in H. cb.
    match goal with H : run_action _ _ _ = Ok _ |- _ => rename H into HR end.
    pose proof (run_action_frame _ _ _ _ _ HR) as (_ & EE & _).
    apply IH in H; [|congruence]. destruct H as (new & -> & HN). rewrite <- app_assoc. eexists. split; [reflexivity|].
    apply Forall_app. split.
    + apply (action_safe _ _ _ _ _ _ HC HE) in HR. eapply Forall_impl; [|exact HR]. cbn beta.
      intros x (H1 & [(msgs & -> & H2)|H2]); (split; [exact H1|]); [left; exists msgs; cbn; auto|auto].
    + eapply Forall_impl; [|exact HN]. cbn beta. intros x (H1 & [(msgs & H2 & H3)|H2]); (split; [exact H1|]); [left; exists msgs; cbn; auto|auto].
Qed.

Lemma custom_in m msgs (p : proposal_info) : In (PExecuteMsgs msgs) (pi_actions p) -> In (Some m) msgs -> In m (customs p).
Proof.
  intros H1 H2. unfold customs. apply in_flat_map. eexists. split; [exact H1|]. apply in_flat_map. eexists. split; [exact H2|]. left. reflexivity.
Qed.

Lemma ctl_call o att s e sender coins m s' subs :
  co_components o = Ok (wiring_of A att) -> ct_enterprise s = a_enterprise A ->
  ctl_execute o ctl_addr s e sender coins m = Ok (s', subs) -> opening o s sender m s' subs.
Proof.
  intros HC HE H. destruct m; cbn [ctl_execute] in H.
  - unfold create_proposal_coins in H. cb. apply create_ok in H. rewrite HC in H.
    destruct H as (c & w & t & en & _ & E & _ & _ & _ & _ & _ & -> & ->). injection E as <-.
    apply op_create; try reflexivity; try exact I; [discriminate|constructor].
  - unfold create_proposal_nft in H. cb.
    match goal with H : create_proposal _ _ _ _ _ _ = Ok _ |- _ => apply create_ok in H; rewrite HC in H;
      destruct H as (c & w & t & en & _ & E & _ & _ & _ & _ & _ & -> & ->) end. injection E as <-.
    cbn [app]. apply op_create; try reflexivity; try exact I; [discriminate|]. eapply take_forall. eassumption.
  - apply council_create_ok in H. rewrite HC in H. destruct H as (cc & c & w & t & en & _ & _ & E & _ & _ & _ & _ & _ & _ & -> & ->).
    injection E as <-. apply op_create; try reflexivity; try exact I; constructor.
  - unfold ctl_cast_vote, user_votes in H. rewrite HC in H. cb. cbn [wiring_of c_membership c_governance] in *. eapply op_vote; try eassumption. apply proposal_type_eqb_eq. assumption.
  - unfold ctl_cast_council_vote, council_weight in H. rewrite HC in H. cb. cbn [wiring_of c_council c_governance] in *.
    eapply op_council_vote; try eassumption. apply proposal_type_eqb_eq. assumption.
  - unfold execute_proposal, end_proposal in H. rewrite HC in H. cb. eapply op_execute; [eassumption|].
    match goal with H : negb (is_some _) = true |- _ => revert H end. destruct (pi_executed_at _); [discriminate|reflexivity].
  - destruct hook as [[actions owner]|]; [|discriminate]. unfold create_proposal_cw20 in H. cb.
    apply create_ok in H. rewrite HC in H. destruct H as (c & w & t & en & _ & E & _ & _ & _ & _ & _ & -> & ->). injection E as <-.
    apply op_create; try reflexivity; try exact I; [discriminate|constructor].
  - unfold weights_changed in H. rewrite HC in H. cbn [bind] in H. cbn [wiring_of c_council c_membership c_governance c_funds] in H.
    destruct (N.eqb_spec sender (a_council A)); [inversion H; subst; apply op_other; eauto|]. cb.
    apply op_weights. apply N.eqb_eq. assumption.
  - unfold execute_actions in H. cb. match goal with H : (_ =? _) = true |- _ => apply N.eqb_eq in H; subst end.
    pose proof (run_actions_frame _ _ _ _ _ _ H) as (F1 & F2 & _).
    apply (actions_safe _ _ HC) in H; [|exact HE]. destruct H as (new & -> & HN).
    eapply op_actions; try eassumption; try reflexivity.
    eapply Forall_impl; [|exact HN]. cbn beta. intros y (H1 & [(msgs & H2 & H3)|H2]); (split; [exact H1|]); [left; eapply custom_in; eassumption|auto].
  - unfold deploy_initial in H. cb. rewrite HC in H. destruct (dflt [] (ct_treasuries s)) as [|d l]; cb; [apply op_other; auto|].
    apply op_other; try reflexivity; [left; reflexivity|]. change (plain (WasmExecute (c_outposts (wiring_of A att)) (ToOutposts (OpDeploy d)) []) :: map (fun d => plain (WasmExecute (c_outposts (wiring_of A att)) (ToOutposts (OpDeploy d)) [])) l)
      with (map (fun d => plain (WasmExecute (c_outposts (wiring_of A att)) (ToOutposts (OpDeploy d)) [])) (d :: l)).
    apply Forall_forall. intros y Hy. apply in_map_iff in Hy. destruct Hy as (dd & <- & _). split; [reflexivity|]. split; [|reflexivity].
    apply mild_to; [discriminate|apply outposts_apart].
Qed.

(** * The atomic part of a controller call *)

(** From [w] to [w1] the controller sent the governance contract the messages [l]. *)
Definition stepped (w w1 : world) (l : list gov_msg) : Prop :=
  (w_enterprise w1, w_funds w1, w_treasury w1, w_outposts w1) = (w_enterprise w, w_funds w, w_treasury w, w_outposts w) /\
  w_member w1 = w_member w /\ w_council w1 = w_council w /\ ct_enterprise (w_ctl w1) = ct_enterprise (w_ctl w) /\
  w_log w1 = map (fun gm => (ctl_addr, gov_msg_of gm)) l ++ w_log w.

Definition updates (e : env) (g : gov) (changes : list weight_change) : res gov :=
  fold_res (fun g ch => update_votes g e (wc_user ch) (wc_new ch)) g changes.

Definition funds_notice (changes : list weight_change) : sub_msg :=
  plain (WasmExecute (a_funds A) (ToFunds (FUpdateUserWeights (map (fun ch => (wc_user ch, wc_new ch)) changes))) []).

Inductive turn (w : world) (e : env) (sender : addr) : controller_msg -> world -> list sub_msg -> Prop :=
| tu_create m c info g id rest w1 : creates m -> pi_executed_at info = None -> pi_earliest info = None ->
    (pi_type info = Council -> pi_deposit info = None) -> cp_deposit c = 0 ->
    Forall (fun x => exists to t, x = plain (WasmExecute to (ToCw721 (Cw721Transfer ctl_addr t)) [])) rest ->
    stepped w w1 [GCreatePoll c] -> create_poll (w_gov w) e c = Ok (g, id) -> w_gov w1 = g ->
    ct_proposals (w_ctl w1) = oset (ct_proposals (w_ctl w)) id info ->
    turn w e sender m w1 rest
| tu_vote id p p' out amount g w1 : oget (ct_proposals (w_ctl w)) id = Some p -> pi_type p = General ->
    co_weight (oracle w) member_addr sender = Ok amount ->
    stepped w w1 [GCastVote id out sender amount] -> cast_vote (w_gov w) e id out sender amount = Ok g -> w_gov w1 = g ->
    content p' = content p -> pi_executed_at p' = pi_executed_at p ->
    (forall i, oget (ct_proposals (w_ctl w1)) i = if id =? i then Some p' else oget (ct_proposals (w_ctl w)) i) ->
    turn w e sender (CCastVote id out) w1 []
| tu_council_vote id p out amount g w1 : oget (ct_proposals (w_ctl w)) id = Some p -> pi_type p = Council ->
    co_weight (oracle w) (a_council A) sender = Ok amount ->
    stepped w w1 [GCastVote id out sender amount] -> cast_vote (w_gov w) e id out sender amount = Ok g -> w_gov w1 = g ->
    ct_proposals (w_ctl w1) = ct_proposals (w_ctl w) ->
    turn w e sender (CCastCouncilVote id out) w1 []
| tu_execute id p pl total early g dep w1 : oget (ct_proposals (w_ctl w)) id = Some p -> pi_executed_at p = None ->
    stepped w w1 [GEndPoll id total false early] -> end_poll (w_gov w) e id total false early = Ok g -> w_gov w1 = g ->
    oget (g_polls g) id = Some pl -> (forall t, p_status pl <> InProgress t) ->
    ct_proposals (w_ctl w1) = oset (ct_proposals (w_ctl w)) id
      (mk_info (pi_type p) (Some e) (pi_earliest p) (pi_deposit p) (pi_actions p)) ->
    match pi_deposit p with
    | None => dep = []
    | Some d => pi_type p = General ->
        exists to, deposit_goes (a_treasury A) (dp_depositor d) (p_status pl) to /\ hands_over to (dp_asset d) dep
    end ->
    Forall (fun x => sm_reply x = ReplyNever /\ mild (sm_msg x)) dep ->
    turn w e sender (CExecuteProposal id) w1
      ((match p_status pl with Passed _ _ => [mk_sub (run_order A id) (ReplyAlways 3)] | _ => [] end) ++ dep)
| tu_weights changes g w1 : sender = member_addr ->
    stepped w w1 (rev (map (fun ch => GUpdateVotes (wc_user ch) (wc_new ch)) changes)) ->
    updates e (w_gov w) changes = Ok g -> w_gov w1 = g -> ct_proposals (w_ctl w1) = ct_proposals (w_ctl w) ->
    turn w e sender (CWeightsChanged changes) w1 [funds_notice changes]
| tu_actions id p subs w1 : sender = ctl_addr -> oget (ct_proposals (w_ctl w)) id = Some p ->
    stepped w w1 [] -> w_gov w1 = w_gov w -> ct_proposals (w_ctl w1) = ct_proposals (w_ctl w) ->
    Forall (fun x => sm_reply x = ReplyNever /\ (In (sm_msg x) (customs p) \/ (mild (sm_msg x) /\ payment ctl_addr (sm_msg x) = []))) subs ->
    turn w e sender (CExecuteActions id) w1 subs
| tu_other m subs w1 : (m = CDeployInitial \/ exists ch, m = CWeightsChanged ch /\ sender = a_council A) ->
    stepped w w1 [] -> w_gov w1 = w_gov w -> ct_proposals (w_ctl w1) = ct_proposals (w_ctl w) ->
    Forall (fun x => sm_reply x = ReplyNever /\ mild (sm_msg x) /\ payment ctl_addr (sm_msg x) = []) subs ->
    turn w e sender m w1 subs.

Lemma go_updates rest : forall changes n w e w' d,
  go n w e (JSubs ctl_addr (map (fun ch => plain (gov_msg_of (GUpdateVotes (wc_user ch) (wc_new ch)))) changes ++ rest)) = Ok (w', d) ->
  exists n' g w1, (n' <= n)%nat /\ stepped w w1 (rev (map (fun ch => GUpdateVotes (wc_user ch) (wc_new ch)) changes)) /\
    updates e (w_gov w) changes = Ok g /\ w_gov w1 = g /\ w_ctl w1 = w_ctl w /\
    go n' w1 e (JSubs ctl_addr rest) = Ok (w', d).
Proof.
  induction changes as [|ch l IH]; intros n w e w' d H.
  - exists n, (w_gov w), w. split; [lia|]. split; [repeat (split; [reflexivity|]); reflexivity|]. repeat (split; [reflexivity|]). exact H.
  - cbn [map app] in H. apply go_gov_plain in H. destruct H as (n' & x & g & dd & -> & HG & H).
    apply IH in H. destruct H as (n2 & g2 & w1 & L & (S1 & S2 & S5 & S3 & S4) & U & G1 & C1 & H).
    apply gov_execute_ok in HG. destruct HG as (_ & HU & _).
    exists n2, g2, w1. split; [lia|]. split.
    { split; [exact S1|]. split; [exact S2|]. split; [exact S5|]. split; [exact S3|]. cbn [map rev]. rewrite S4, map_app. cbn. rewrite <- app_assoc. reflexivity. }
    split; [unfold updates; cbn [fold_res]; rewrite HU; exact U|]. split; [exact G1|]. split; [exact C1|exact H].
Qed.

Lemma hands_safe to a l : hands_over to a l -> Forall (fun x => sm_reply x = ReplyNever /\ mild (sm_msg x)) l.
Proof.
  intros H. destruct H; [| |].
  - constructor; [|constructor]. split; [reflexivity|]. split; [exact I|discriminate].
  - constructor; [|constructor]. split; [reflexivity|]. split; [|discriminate]. cbn. repeat split; intros; discriminate.
  - induction H; constructor; [|assumption]. subst. split; [reflexivity|]. split; [|discriminate]. cbn. repeat split; intros; discriminate.
Qed.

Lemma resolve_safe o s e id s' pl dep :
  ctl_poll o id = Ok pl ->
  resolve_ended o ctl_addr s e id =
    Ok (s', (match p_status pl with Passed _ _ => [mk_sub (run_order A id) (ReplyAlways 3)] | _ => [] end) ++ dep) ->
  Forall (fun x => sm_reply x = ReplyNever /\ mild (sm_msg x)) dep.
Proof.
  intros HP H. unfold resolve_ended in H. rewrite HP in H. cbn [bind] in H.
  assert (R : forall p, Forall (fun x => sm_reply x = ReplyNever /\ mild (sm_msg x)) (return_deposit p)).
  { intros p. unfold return_deposit. destruct (pi_deposit p); [|constructor]. eapply hands_safe, send_deposit_hands_over. }
  destruct (p_status pl) as [t|oo k|reason]; [discriminate| |].
  - apply bind_ok in H. destruct H as (p & _ & H). injection H as _ <-. apply R.
  - apply bind_ok in H. destruct H as (p & _ & H). apply bind_ok in H. destruct H as (msgs & HM & H). injection H as _ <-.
    destruct (pi_type p); [|inversion HM; constructor].
    assert (Q : forall d, match pi_deposit p with
       | Some d => c <- co_components o ;; Ok (send_deposit (dp_asset d) (c_treasury c))
       | None => Ok [] end = Ok d -> Forall (fun x => sm_reply x = ReplyNever /\ mild (sm_msg x)) d).
    { intros d Hd. destruct (pi_deposit p); [|inversion Hd; constructor]. apply bind_ok in Hd. destruct Hd as (c & _ & Hd). inversion Hd; subst.
      eapply hands_safe, send_deposit_hands_over. }
    destruct reason; try (exact (Q _ HM)); inversion HM; subst; apply R.
Qed.

Lemma ctl_turn n w e sender coins m s' subs w' d :
  wired w -> ctl_execute (oracle w) ctl_addr (w_ctl w) e sender coins m = Ok (s', subs) ->
  go n (set_ctl w s') e (JSubs ctl_addr subs) = Ok (w', d) ->
  exists n' w1 subs1, (n' <= n)%nat /\ turn w e sender m w1 subs1 /\ exists d', go n' w1 e (JSubs ctl_addr subs1) = Ok (w', d').
Proof.
  intros HW HX HG. destruct (wired_components _ HW) as (att & HC). apply (ctl_call _ _ _ _ _ _ _ _ _ HC (wi_of _ HW)) in HX.
  destruct HX.
  - apply go_gov in HG. destruct HG as (n' & x & g & dd & s2 & more & w3 & d3 & -> & HG & HR & H1' & H2').
    apply gov_execute_ok in HG. destruct HG as (_ & id & HG & ->). unfold ctl_reply in HR. cbn in HR. injection HR as <- <-.
    apply go_nil in H1'. destruct H1' as [-> ->]. eexists n', _, rest. split; [lia|]. split; [|eexists; exact H2'].
    eapply tu_create; try eassumption; try reflexivity. still.
  - apply go_gov in HG. destruct HG as (n' & x & g & dd & s2 & more & w3 & d3 & -> & HG & HR & H1' & H2').
    apply gov_execute_ok in HG. destruct HG as (_ & HG & ->).
    change (reply_cast_vote (oracle (after_gov (set_ctl w (with_voting (w_ctl w) (Some (id, k)))) (GCastVote id out sender amount) x g))
      (with_voting (w_ctl w) (Some (id, k))) e = Ok (s2, more)) in HR.
    apply reply_vote_ok in HR. destruct HR as (id' & k' & E & -> & HR). cbn in E. injection E as <- <-.
    apply go_nil in H1'. destruct H1' as [-> ->]. eexists n', _, []. split; [lia|]. split; [|eexists; exact H2'].
    destruct HR as [->|(p0 & t & ea & Hp & _ & _ & _ & ->)].
    + apply (tu_vote _ _ _ id p p out amount g); try assumption; try reflexivity; [still|].
      intros i. cbn. destruct (N.eqb_spec id i) as [<-|]; [assumption|reflexivity].
    + cbn in Hp. assert (p0 = p) by congruence. subst p0.
      apply (tu_vote _ _ _ id p (mk_info (pi_type p) (pi_executed_at p) (Some t) (pi_deposit p) (pi_actions p)) out amount g);
        try assumption; try reflexivity; [still|]. intros i. cbn. rewrite oget_oset. reflexivity.
  - apply go_gov_plain in HG. destruct HG as (n' & x & g & dd & -> & HG & H2'). apply gov_execute_ok in HG. destruct HG as (_ & HG & _).
    eexists n', _, []. split; [lia|]. split; [|eexists; exact H2'].
    eapply tu_council_vote; try eassumption; try reflexivity. still.
  - apply go_gov in HG. destruct HG as (n' & x & g & dd & s2 & more & w3 & d3 & -> & HG & HR & H1' & H2').
    apply gov_execute_ok in HG. destruct HG as (_ & HG & ->).
    set (w2 := after_gov (set_ctl w (with_executing (w_ctl w) (Some id))) (GEndPoll id total false early) x g) in *.
    assert (HC2 : co_components (oracle w2) = Ok (wiring_of A att)) by exact HC.
    pose proof HR as HR0. unfold ctl_reply in HR0. cbn in HR0. apply resolve_ok in HR0. destruct HR0 as (pl & p0 & Hpl & Hp & Hst & ->).
    cbn in Hp. assert (p0 = p) by congruence. subst p0.
    pose proof (resolution_messages _ _ _ _ _ _ _ id p pl _ HR eq_refl H HC2 Hpl) as (acts & dep & -> & -> & HD & _).
    cbn [wiring_of c_treasury] in HD.
    apply go_nil in H2'. destruct H2' as [-> ->]. eexists n', _, _. split; [lia|]. split; [|eexists; exact H1'].
    eapply tu_execute with (pl := pl); try eassumption; try reflexivity; [still| |].
    + unfold ctl_poll in Hpl. rewrite HC2 in Hpl. cbn in Hpl. unfold gov_at in Hpl. rewrite N.eqb_refl in Hpl. cbn [bind] in Hpl.
      apply query_poll_ok. exact Hpl.
    + eapply resolve_safe; [exact Hpl|exact HR].
  - apply go_updates in HG. destruct HG as (n' & g & w1 & L & (S1 & S2 & S5 & S3 & S4) & U & G1 & C1 & H2).
    exists n', w1, [funds_notice changes]. split; [exact L|]. split; [|eexists; exact H2].
    eapply tu_weights; try eassumption; [split; [exact S1|]; split; [exact S2|]; split; [exact S5|]; split; [exact S3|exact S4]|]. rewrite C1. reflexivity.
  - eexists n, _, subs. split; [lia|]. split; [|eexists; exact HG]. eapply tu_actions; try eassumption; try reflexivity.
    split; [reflexivity|]. split; [reflexivity|]. split; [reflexivity|]. split; [assumption|reflexivity].
  - eexists n, _, subs. split; [lia|]. split; [|eexists; exact HG]. apply tu_other; try assumption; try reflexivity.
    split; [reflexivity|]. split; [reflexivity|]. split; [reflexivity|]. split; [assumption|reflexivity].
Qed.

(** * First induction: the wiring and the proposals' records last, whatever anybody does *)

Definition fine (subs : list sub_msg) : Prop := Forall (fun x => sm_reply x = ReplyNever \/ sm_reply x = ReplyAlways 3) subs.

Lemma stepped_size w w1 l : stepped w w1 l -> size w1 = size w + N.of_nat (length l).
Proof. intros (_ & _ & _ & _ & E). unfold size. rewrite E, app_length, map_length. lia. Qed.

(** Wiring is as before; [w1] has the records of [w], possibly moved on. *)
Lemma turn_records w w1 l :
  wired w -> stepped w w1 l -> g_admin (w_gov w1) = g_admin (w_gov w) -> g_count (w_gov w) <= g_count (w_gov w1) <= size w1 ->
  (forall id p, oget (ct_proposals (w_ctl w1)) id = Some p -> 1 <= id <= g_count (w_gov w1)) ->
  (forall id p, oget (ct_proposals (w_ctl w)) id = Some p ->
    exists p', oget (ct_proposals (w_ctl w1)) id = Some p' /\ content p' = content p /\
               (forall b, pi_executed_at p = Some b -> pi_executed_at p' = Some b)) ->
  wired w1 /\ kept w w1.
Proof.
  intros [H1 H2 H3 H4 H5] S HA1 HC HI HK. pose proof (stepped_size _ _ _ S) as HS. destruct S as (S1 & S2 & S5 & S3 & S4). split.
  - injection S1 as S1 _ _ _. split; [rewrite S1; exact H1|rewrite S3; exact H2|congruence|exact HI|lia].
  - split; [lia|]. split; [lia|exact HK].
Qed.

Lemma updates_count e changes : forall g g', updates e g changes = Ok g' -> g_count g' = g_count g /\ g_admin g' = g_admin g.
Proof.
  induction changes as [|ch l IH]; intros g g' H; unfold updates in *; cbn [fold_res] in H; [inversion H; auto|].
  apply bind_ok in H. destruct H as (g1 & H1 & H). apply IH in H. destruct H as [-> ->]. split; [eapply update_count; eassumption|].
  assert (HG : gov_execute g e (g_admin g) (GUpdateVotes (wc_user ch) (wc_new ch)) = Ok (g1, None)).
  { unfold gov_execute. rewrite N.eqb_refl. cbn [guard bind]. rewrite H1. reflexivity. }
  exact (execute_admin _ _ _ _ _ _ HG).
Qed.

Lemma create_facts g e c g' id : g_count g + 1 < M64 -> create_poll g e c = Ok (g', id) ->
  id = g_count g + 1 /\ g_count g' = id /\ g_admin g' = g_admin g.
Proof.
  intros Hc H. unfold create_poll in H. bind_inv H. inversion H; subst; clear H. cbn.
  assert (E : u64_add (g_count g) 1 = g_count g + 1) by (unfold u64_add; apply N.mod_small; lia). rewrite E. auto.
Qed.

Lemma cast_admin g e id o voter amount g' : cast_vote g e id o voter amount = Ok g' -> g_admin g' = g_admin g.
Proof. intros H. apply cast_vote_ok in H. destruct H as (p & _ & _ & _ & _ & _ & _ & ->). reflexivity. Qed.

Lemma turn_wired w e sender m w1 subs1 :
  wired w -> size w1 < M64 -> turn w e sender m w1 subs1 -> wired w1 /\ kept w w1 /\ fine subs1.
Proof.
  intros HW HS HT. pose proof HW as [_ _ _ HI HCt].
  assert (Q : forall l, stepped w w1 l -> g_admin (w_gov w1) = g_admin (w_gov w) -> g_count (w_gov w1) = g_count (w_gov w) ->
     ct_proposals (w_ctl w1) = ct_proposals (w_ctl w) -> wired w1 /\ kept w w1).
  { intros l S E1 E2 E3. pose proof (stepped_size _ _ _ S). eapply turn_records; try eassumption; [lia| |].
    - intros id p Hp. rewrite E3 in Hp. rewrite E2. eauto.
    - intros id p Hp. exists p. rewrite E3. auto. }
  destruct HT.
  - pose proof (stepped_size _ _ _ H5) as SS. cbn in SS. apply create_facts in H6; [|lia]. destruct H6 as (E1 & E2 & E3). subst g.
    rewrite <- and_assoc. split.
    + eapply turn_records; try eassumption; [lia| |].
      * intros i p Hp. rewrite H8, oget_oset in Hp. destruct (N.eqb_spec id i) as [<-|]; [lia|]. apply HI in Hp. lia.
      * intros i p Hp. exists p. rewrite H8, oget_oset. destruct (N.eqb_spec id i) as [<-|]; [apply HI in Hp; lia|auto].
    + eapply Forall_impl; [|exact H4]. intros x (to & t & ->). left. reflexivity.
  - pose proof (stepped_size _ _ _ H2) as SS. rewrite <- and_assoc. split; [|constructor].
    pose proof (cast_count _ _ _ _ _ _ _ H3) as E1. pose proof (cast_admin _ _ _ _ _ _ _ H3) as E2. subst g.
    eapply turn_records; try eassumption; [lia| |].
    + intros i q Hq. rewrite H7 in Hq. rewrite E1. destruct (N.eqb_spec id i) as [<-|]; eauto.
    + intros i q Hq. rewrite H7. destruct (N.eqb_spec id i) as [<-|]; [|exists q; auto]. exists p'. assert (q = p) by congruence. subst q.
      split; [reflexivity|]. split; [assumption|]. intros b Hb. congruence.
  - rewrite <- and_assoc. split; [|constructor]. subst g. eapply Q; try eassumption; [eapply cast_admin|eapply cast_count]; eassumption.
  - rewrite <- and_assoc. apply end_poll_ok in H2. destruct H2 as (pl0 & Hpl0 & EG & _). split.
    + pose proof (stepped_size _ _ _ H1) as SS. eapply turn_records; try eassumption.
      * rewrite H3, EG. reflexivity.
      * rewrite H3, EG. cbn. lia.
      * intros i q Hq. rewrite H6, oget_oset in Hq. rewrite H3, EG. cbn. destruct (N.eqb_spec id i) as [<-|]; eauto.
      * intros i q Hq. rewrite H6, oget_oset. destruct (N.eqb_spec id i) as [<-|]; [|exists q; auto].
        assert (q = p) by congruence. subst q. eexists. split; [reflexivity|]. split; [reflexivity|]. intros b Hb. congruence.
    + apply Forall_app. split; [destruct (p_status pl); repeat constructor; right; reflexivity|].
      eapply Forall_impl; [|eassumption]. intros x (Hx & _). left. exact Hx.
  - rewrite <- and_assoc. apply updates_count in H1. destruct H1 as [E1 E2]. split.
    + eapply Q; try eassumption; congruence.
    + repeat constructor.
  - rewrite <- and_assoc. split; [eapply Q; try eassumption; congruence|]. eapply Forall_impl; [|eassumption]. intros x (Hx & _). left. exact Hx.
  - rewrite <- and_assoc. split; [eapply Q; try eassumption; congruence|]. eapply Forall_impl; [|eassumption]. intros x (Hx & _). left. exact Hx.
Qed.

Lemma reply_3 o s e r s' more : ctl_reply o ctl_addr s e 3 r = Ok (s', more) -> s' = s /\ more = [].
Proof. unfold ctl_reply. cbn. intros H. inversion H. auto. Qed.

Lemma ext_wired w x : wired w -> wired (set_ext w x) /\ kept w (set_ext w x).
Proof. apply quiet_wired, quiet_ext. Qed.

(** where a delivered message starts *)
Lemma start_wired w s m x : wired w ->
  wired (set_ext (note w s m) x) /\ kept w (set_ext (note w s m) x) /\ size (set_ext (note w s m) x) = size w + 1.
Proof.
  intros H. destruct (note_wired w s m H) as [H1 H2]. destruct (ext_wired _ x H1) as [H3 H4].
  split; [exact H3|]. split; [eapply kept_trans; eassumption|]. exact (size_note w s m).
Qed.

Lemma layer1 n : forall w e j w' d, go n w e j = Ok (w', d) -> wired w ->
  match j with JSubs self subs => self = ctl_addr -> fine subs | JMsg _ _ => True end ->
  size w' < M64 -> wired w' /\ kept w w'.
Proof.
  induction n as [n IH] using lt_wf_ind. intros w e j w' d H HW HF HS.
  destruct j as [s m|self [|x rest]].
  - destruct n as [|n]; [discriminate|].
    apply go_msg in H. destruct H as [(to & wm & coins & x & w1 & subs & d' & -> & _ & Hh & Hg)|(_ & Ho)].
    + destruct (start_wired w s (WasmExecute to wm coins) x HW) as (W0 & K0 & S0).
      pose proof (wi_count _ HW) as HC0.
      set (w0 := set_ext (note w s (WasmExecute to wm coins)) x) in *.
      pose proof (go_size _ _ _ _ _ _ Hg) as GS.
      apply handle_cases in Hh. destruct Hh as [(-> & cm & s' & -> & He & -> & _)|[(-> & gm & g & -> & He & -> & ->)|[(-> & mm & s' & outs & -> & He & -> & -> & _)|(N1 & N2 & N3 & Q)]]].
      * destruct (ctl_turn _ _ _ _ _ _ _ _ _ _ W0 He Hg) as (n' & w1 & subs1 & L & T & d2 & G).
        pose proof (go_size _ _ _ _ _ _ G) as GS1.
        apply turn_wired in T; [|assumption|lia]. destruct T as (W1 & K1 & F1).
        destruct (IH n' ltac:(lia) _ _ _ _ _ G W1 (fun _ => F1) HS) as (W2 & K2).
        split; [exact W2|]. exact (kept_trans _ _ _ K0 (kept_trans _ _ _ K1 K2)).
      * apply go_nil in Hg. destruct Hg as [-> _].
        assert (SE : size (set_gov w0 g) = size w0) by reflexivity. rewrite SE in *.
        assert (CE : g_count (w_gov w0) = g_count (w_gov w)) by reflexivity.
        apply gov_count in He; [|lia]. destruct He as (C1 & C2 & _).
        assert (KK : wired (set_gov w0 g) /\ kept w0 (set_gov w0 g)).
        { destruct W0 as [H1 H2 H3 H4 H5]. split.
          - split; try assumption.
            + cbn. congruence.
            + intros id p Hp. apply H4 in Hp. cbn. cbn in C1. lia.
            + rewrite SE. change (w_gov (set_gov w0 g)) with g. lia.
          - split; [rewrite SE; lia|]. split; [cbn; lia|]. intros id p Hp. exists p. auto. }
        split; [apply KK|]. eapply kept_trans; [exact K0|apply KK].
      * destruct (member_wired w0 s' W0) as (W1 & K1).
        destruct (IH n ltac:(lia) _ _ _ _ _ Hg W1 (fun E => False_ind _ (member_not_ctl E)) HS) as (W2 & K2).
        split; [exact W2|]. exact (kept_trans _ _ _ K0 (kept_trans _ _ _ K1 K2)).
      * destruct (quiet_wired _ _ Q W0) as (W1 & K1).
        destruct (IH n ltac:(lia) _ _ _ _ _ Hg W1 (fun E => False_ind _ (N1 E)) HS) as (W2 & K2).
        split; [exact W2|]. exact (kept_trans _ _ _ K0 (kept_trans _ _ _ K1 K2)).
    + apply other_quiet in Ho. destruct (note_wired w s m HW) as (W1 & K1). destruct (quiet_wired _ _ Ho W1) as (W2 & K2).
      split; [exact W2|]. exact (kept_trans _ _ _ K1 K2).
  - apply go_nil in H. destruct H as [-> _]. split; [exact HW|apply kept_refl].
  - apply go_cons in H. destruct H as (n' & -> & H).
    assert (HR : forall wa id r wb more wc dc wd dd, sm_reply x = ReplySuccess id \/ sm_reply x = ReplyAlways id ->
      wired wa -> kept w wa -> on_reply wa e self id r = Ok (wb, more) -> go n' wb e (JSubs self more) = Ok (wc, dc) ->
      go n' wc e (JSubs self rest) = Ok (wd, dd) -> size wd < M64 -> wired wd /\ kept w wd).
    { intros wa id r wb more wc dc wd dd HI Wa Ka Hr Hg1 Hg2 Sd.
      pose proof (go_size _ _ _ _ _ _ Hg2) as S2.
      assert (Wb : wired wb /\ kept wa wb /\ (self = ctl_addr -> fine more)).
      { apply reply_cases in Hr. destruct Hr as [(-> & s' & Hr & ->)|(N & Q)].
        - assert (id = 3) as ->. { specialize (HF eq_refl). inversion HF; subst. destruct HI as [E|E], H2 as [F|F]; congruence. }
          apply reply_3 in Hr. destruct Hr as [-> ->]. rewrite <- and_assoc. split; [|intros _; constructor].
          apply scene_wired; [split; reflexivity|assumption].
        - rewrite <- and_assoc. split; [apply quiet_wired; assumption|]. intros E. destruct (N E). }
      destruct Wb as (Wb & Kb & Fb).
      destruct (IH n' ltac:(lia) _ _ _ _ _ Hg1 Wb Fb ltac:(lia)) as (Wc & Kc).
      destruct (IH n' ltac:(lia) _ _ _ _ _ Hg2 Wc (fun E => Forall_inv_tail (HF E)) Sd) as (Wd & Kd).
      split; [exact Wd|]. exact (kept_trans _ _ _ Ka (kept_trans _ _ _ Kb (kept_trans _ _ _ Kc Kd))). }
    destruct H as [(w1 & d1 & H1 & [(_ & H2)|(id & w2 & more & w3 & d3 & E & H2 & H3 & H4)])|(id & w2 & more & w3 & d3 & _ & E & H2 & H3 & H4)].
    + pose proof (go_size _ _ _ _ _ _ H2).
      destruct (IH n' ltac:(lia) _ _ _ _ _ H1 HW I ltac:(lia)) as (W1 & K1).
      destruct (IH n' ltac:(lia) _ _ _ _ _ H2 W1 (fun E => Forall_inv_tail (HF E)) HS) as (W2 & K2).
      split; [exact W2|exact (kept_trans _ _ _ K1 K2)].
    + assert (size w1 < M64).
      { pose proof (go_size _ _ _ _ _ _ H3). pose proof (go_size _ _ _ _ _ _ H4). apply reply_log in H2. unfold size in *. rewrite H2 in *. lia. }
      destruct (IH n' ltac:(lia) _ _ _ _ _ H1 HW I ltac:(lia)) as (W1 & K1). eapply HR; eassumption.
    + eapply HR; try eassumption; [right; exact E|apply kept_refl].
Qed.

(** * The governance contract's part of a turn *)

Definition status_of (g : gov) (id : N) : option poll_status := option_map p_status (oget (g_polls g) id).

Lemma counts_status g g' : only_counts_change g g' -> forall id, status_of g' id = status_of g id.
Proof.
  intros (H1 & H2) id. unfold status_of. destruct (oget (g_polls g) id) as [p|] eqn:E.
  - apply query_poll_ok, H1 in E. destruct E as (p' & E & _ & Es). apply query_poll_ok in E. rewrite E. cbn. congruence.
  - destruct (oget (g_polls g') id) as [p'|] eqn:E'; [|reflexivity]. apply query_poll_ok, H2 in E'. destruct E' as (p & Ep).
    apply query_poll_ok in Ep. congruence.
Qed.

Lemma update_started g e voter amount g' T : update_votes g e voter amount = Ok g' -> started_by g T -> started_by g' T.
Proof.
  intros H Hs. unfold update_votes in H. bind_inv H.
  refine (fold_res_inv (fun s => started_by s T) _ _ _ g g' Hs H).
  intros s0 v s' _ Hs0 Hu. apply update_vote_ok in Hu. destruct Hu as [->|(o & _ & Hu)]; [auto|].
  eapply cast_started; eassumption.
Qed.

Lemma update_voter g e voter amount g' : update_votes g e voter amount = Ok g' -> voter <> 0.
Proof. unfold update_votes, query_voter. intros H E. subst. cbn in H. discriminate. Qed.

Lemma opened_iff g id now : opened g id now = true <-> exists ends, status_of g id = Some (InProgress ends) /\ now < ends.
Proof.
  unfold opened, status_of, open_now. destruct (oget (g_polls g) id) as [p|]; cbn; [|split; [discriminate|intros (x & E & _); discriminate]].
  destruct (p_status p); [|split; [discriminate|intros (x & E & _); discriminate]..]. split.
  - intros H. eexists. split; [reflexivity|]. lia.
  - intros (x & E & H). injection E as <-. lia.
Qed.

Lemma updates_spec e changes : forall g g', updates e g changes = Ok g' ->
  PollProofs.inv g -> started_by g (e_time e) -> Forall (fun c => wc_new c < M128) changes ->
  PollProofs.inv g' /\ started_by g' (e_time e) /\ (forall id, status_of g' id = status_of g id) /\
  (forall voter id v', get_vote g' voter id = Some v' -> exists v, get_vote g voter id = Some v /\
     forall w w', opened g id (e_time e) = true -> v_amount v = w -> replay voter w changes = Some w' -> v_amount v' = w').
Proof.
  induction changes as [|ch l IH]; intros g g' H HI HS HF; unfold updates in *; cbn [fold_res] in H.
  - inversion H; subst. split; [assumption|]. split; [assumption|]. split; [reflexivity|]. intros voter id v' Hv. exists v'. split; [assumption|].
    intros w w' _ E R. cbn in R. congruence.
  - apply bind_ok in H. destruct H as (g1 & H1 & H). inversion HF as [|? ? HF1 HF2]; subst.
    pose proof (inv_update _ _ _ _ _ HI HF1 H1) as HI1. pose proof (update_started _ _ _ _ _ _ H1 HS) as HS1.
    pose proof (counts_status _ _ (update_only_counts _ _ _ _ _ H1)) as ST1.
    destruct (IH _ _ H HI1 HS1 HF2) as (I2 & S2 & ST2 & V2). clear IH H.
    split; [assumption|]. split; [assumption|]. split; [intros id; rewrite ST2; apply ST1|].
    destruct (update_votes_spec _ e (wc_user ch) (wc_new ch) HI HF1 (update_voter _ _ _ _ _ H1) HS) as (g1' & E & V1 & V1').
    rewrite H1 in E. injection E as <-.
    intros voter id v' Hv. apply V2 in Hv. destruct Hv as (v1 & Hv1 & R1).
    assert (HO : opened g1 id (e_time e) = opened g id (e_time e)).
    { destruct (opened g id (e_time e)) eqn:E1, (opened g1 id (e_time e)) eqn:E2; try reflexivity.
      - apply opened_iff in E1. rewrite <- ST1 in E1. apply opened_iff in E1. congruence.
      - apply opened_iff in E2. rewrite ST1 in E2. apply opened_iff in E2. congruence. }
    destruct (N.eqb_spec (wc_user ch) voter) as [<-|NE].
    + rewrite V1' in Hv1. destruct (get_vote g (wc_user ch) id) as [v|] eqn:Ev; [|discriminate]. exists v. split; [reflexivity|].
      intros w w' O Ew R. rewrite O in Hv1. injection Hv1 as <-. unfold replay in R. cbn [fold_left] in R. rewrite N.eqb_refl in R.
      destruct (wc_old ch =? w); [|exfalso; clear - R; induction l; [discriminate|auto]].
      eapply R1; [congruence|reflexivity|exact R].
    + rewrite V1 in Hv1 by congruence. exists v1. split; [assumption|]. intros w w' O Ew R. unfold replay in R. cbn [fold_left] in R.
      apply N.eqb_neq in NE. rewrite NE in R. eapply R1; [congruence|eassumption|exact R].
Qed.

(** * Second induction: calm DAOs *)

Definition ready (w : world) (id : N) : Prop :=
  exists p b o n, oget (ct_proposals (w_ctl w)) id = Some p /\ pi_executed_at p = Some b /\ status_of (w_gov w) id = Some (Passed o n).

Definition once (x : addr * cosmos_msg) (l : list (addr * cosmos_msg)) : Prop :=
  forall l1 l2, l = l1 ++ x :: l2 -> ~ In x l2.

Lemma once_cons x y l : once x l -> (y = x -> ~ In x l) -> once x (y :: l).
Proof.
  intros H1 H2 l1 l2 E. destruct l1 as [|z l1]; cbn in E; injection E as E1 E2; [subst; auto|]. eapply H1. eassumption.
Qed.

Record core (now : N) (w : world) : Prop := mk_core {
  c_wired : wired w;
  c_hooks : okeys (m_hooks (members_of (w_member w))) = [ctl_addr];
  c_ent : m_enterprise (members_of (w_member w)) = a_enterprise A;
  c_small : small (w_member w);
  c_council : small (w_council w);
  c_ginv : PollProofs.inv (w_gov w);
  c_started : started_by (w_gov w) now;
  c_acted : forall id, acted A w id -> ready w id;
  c_order : forall s id coins, In (s, WasmExecute ctl_addr (ToController (CExecuteActions id)) coins) (w_log w) -> s = ctl_addr /\ coins = [];
  c_once : forall id, once (ctl_addr, run_order A id) (w_log w);
  c_ended : forall id p b, oget (ct_proposals (w_ctl w)) id = Some p -> pi_executed_at p = Some b ->
    exists s, status_of (w_gov w) id = Some s /\ forall t, s <> InProgress t;
  c_open : forall id p, oget (ct_proposals (w_ctl w)) id = Some p -> pi_executed_at p = None ->
    exists t, status_of (w_gov w) id = Some (InProgress t);
  c_plain : forall id p, oget (ct_proposals (w_ctl w)) id = Some p -> pi_type p = Council -> pi_deposit p = None
}.

Definition votes_as (w : world) (now : N) (W : addr -> N) : Prop :=
  forall id voter v, open_poll w General id now -> get_vote (w_gov w) voter id = Some v -> v_amount v = W voter.

Lemma quiet_core now w w1 : quiet w w1 -> core now w -> core now w1.
Proof.
  intros Q C. pose proof (quiet_wired _ _ Q (c_wired _ _ C)) as (W1 & _). destruct Q as (Q1 & Q2 & Q3 & Q4 & Q5 & Q6).
  destruct C as [C1 C2 C3 C4 C5 C6 C7 C8 CO C9 C10 C11 C12]. split; try assumption; rewrite ?Q1, ?Q2, ?Q3, ?Q4; auto.
  intros id Ha. unfold acted in *. rewrite Q4 in Ha. apply C8 in Ha. unfold ready in *. rewrite Q1, Q2. exact Ha.
Qed.

Lemma quiet_votes now w w1 : quiet w w1 -> votes_current w now -> votes_current w1 now.
Proof.
  intros (Q1 & Q2 & Q3 & Q4 & Q5 & Q6) V id voter v O H. rewrite Q2 in H. rewrite Q3. apply (V id); [|exact H].
  unfold open_poll in *. rewrite Q1, Q2 in O. exact O.
Qed.

Lemma note_core now w s m : core now w ->
  (forall id coins, m = WasmExecute ctl_addr (ToController (CExecuteActions id)) coins -> s = ctl_addr /\ coins = [] /\ ready w id /\ ~ acted A w id) ->
  core now (note w s m).
Proof.
  intros C H. pose proof (note_wired w s m (c_wired _ _ C)) as (W1 & _). destruct C as [C1 C2 C3 C4 C5 C6 C7 C8 CO C9 C10 C11 C12].
  split; try assumption.
  - intros id Ha. unfold acted in Ha. cbn [note w_log In] in Ha. destruct Ha as [E|Ha]; [|apply C8; exact Ha].
    injection E as _ E. apply H in E. apply E.
  - intros s0 id coins Hin. cbn [note w_log In] in Hin. destruct Hin as [E|Hin]; [|eapply CO; exact Hin].
    injection E as -> E. apply H in E. split; apply E.
  - intros id. cbn [note w_log]. apply once_cons; [apply C9|]. intros E. injection E as _ E. apply H in E. apply E.
Qed.

Lemma stepped_acted w w1 l id : stepped w w1 l -> acted A w1 id <-> acted A w id.
Proof.
  intros (_ & _ & _ & _ & E). unfold acted. rewrite E, in_app_iff. split; [|auto]. intros [H|H]; [|exact H]. exfalso.
  apply in_map_iff in H. destruct H as (gm & E1 & _). unfold gov_msg_of, run_order in E1. congruence.
Qed.

Lemma stepped_order w w1 l s id coins : stepped w w1 l ->
  In (s, WasmExecute ctl_addr (ToController (CExecuteActions id)) coins) (w_log w1) ->
  In (s, WasmExecute ctl_addr (ToController (CExecuteActions id)) coins) (w_log w).
Proof.
  intros (_ & _ & _ & _ & E). rewrite E, in_app_iff. intros [H|H]; [|exact H]. exfalso.
  apply in_map_iff in H. destruct H as (gm & E1 & _). unfold gov_msg_of in E1. congruence.
Qed.

Lemma stepped_once w w1 l id : stepped w w1 l -> once (ctl_addr, run_order A id) (w_log w) -> once (ctl_addr, run_order A id) (w_log w1).
Proof.
  intros (_ & _ & _ & _ & E) H. rewrite E. clear E. induction l as [|gm l IH]; [exact H|]. cbn [map app]. apply once_cons; [exact IH|].
  intros E1. unfold gov_msg_of, run_order in E1. congruence.
Qed.

Lemma weight_at_member w u amount : co_weight (oracle w) member_addr u = Ok amount -> amount = weight_of (w_member w) u /\ u <> 0.
Proof.
  cbn. unfold members_at. rewrite N.eqb_refl. cbn [bind]. unfold query_user_weight. intros H. apply bind_ok in H. destruct H as (u' & Hu & H).
  apply addr_validate_ok in Hu. destruct Hu as [-> Hu]. injection H as <-. auto.
Qed.
Lemma weight_at_council w u amount : co_weight (oracle w) (a_council A) u = Ok amount -> amount = weight_of (w_council w) u.
Proof.
  cbn. unfold members_at. destruct (N.eqb_spec (a_council A) member_addr) as [E|_]; [destruct (council_not_member E)|]. rewrite N.eqb_refl. cbn [bind].
  unfold query_user_weight. intros H. apply bind_ok in H. destruct H as (u' & Hu & H).
  apply addr_validate_ok in Hu. destruct Hu as [-> Hu]. injection H as <-. reflexivity.
Qed.

Lemma small_weight st u : small st -> weight_of st u < M128.
Proof. intros ((HS & _) & HT). pose proof (weight_le_total _ u HS). unfold weight_of, member_weight in *. lia. Qed.

(** one step that does not touch the statuses of polls nor the records, apart from [earliest] *)
Lemma core_same now w w1 l :
  core now w -> wired w1 -> stepped w w1 l -> PollProofs.inv (w_gov w1) -> started_by (w_gov w1) now ->
  (forall id, status_of (w_gov w1) id = status_of (w_gov w) id) ->
  (forall id p', oget (ct_proposals (w_ctl w1)) id = Some p' ->
     exists p, oget (ct_proposals (w_ctl w)) id = Some p /\ content p' = content p /\ pi_executed_at p' = pi_executed_at p) ->
  (forall id p, oget (ct_proposals (w_ctl w)) id = Some p ->
     exists p', oget (ct_proposals (w_ctl w1)) id = Some p' /\ pi_executed_at p' = pi_executed_at p) ->
  core now w1.
Proof.
  intros C W1 S GI GS ST R1 R2. pose proof S as (S1 & S2 & S3 & S4 & S5). destruct C as [C1 C2 C3 C4 C5 C6 C7 C8 CO C9 C10 C11 C12].
  split; try assumption; rewrite ?S2, ?S3; try assumption.
  - intros id Ha. apply (stepped_acted _ _ _ _ S) in Ha. apply C8 in Ha. destruct Ha as (p & b & o & n & H1 & H2 & H3).
    destruct (R2 _ _ H1) as (p' & H1' & E). exists p', b, o, n. split; [exact H1'|]. split; [congruence|]. rewrite ST. exact H3.
  - intros s0 id coins Hin. eapply CO. eapply stepped_order; eassumption.
  - intros id. eapply stepped_once; [exact S|apply C9].
  - intros id p' b Hp Hb. destruct (R1 _ _ Hp) as (p & H1 & _ & E). rewrite ST. rewrite E in Hb. exact (C10 _ _ _ H1 Hb).
  - intros id p' Hp Hb. destruct (R1 _ _ Hp) as (p & H1 & _ & E). rewrite ST. rewrite E in Hb. exact (C11 _ _ H1 Hb).
  - intros id p' Hp Ht. destruct (R1 _ _ Hp) as (p & H1 & E & _). unfold content in E. injection E as E1 E2 _. rewrite E2. eapply C12; [exact H1|congruence].
Qed.

Lemma create_status g e c g' id : create_poll g e c = Ok (g', id) ->
  (forall i, i <> id -> oget (g_polls g') i = oget (g_polls g) i) /\ (exists t, status_of g' id = Some (InProgress t)) /\
  (forall voter i, get_vote g' voter i = get_vote g voter i).
Proof.
  intros H. unfold create_poll in H. bind_inv H. inversion H; subst; clear H. split; [|split].
  - intros i Hi. cbn. rewrite oget_oset_ne by congruence. reflexivity.
  - unfold status_of. cbn. rewrite oget_oset_eq. cbn. eauto.
  - reflexivity.
Qed.

Lemma create_started g e c g' id T : create_poll g e c = Ok (g', id) -> started_by g T -> e_time e <= T -> started_by g' T.
Proof.
  intros H Hs HT i p Hp. unfold create_poll in H. bind_inv H. inversion H; subst; clear H.
  cbn in Hp. rewrite oget_oset in Hp. destruct (_ =? i); [|eapply Hs; eassumption]. inversion Hp; subst; cbn. exact HT.
Qed.

Lemma turn_core e w sender m w1 subs1 :
  core (e_time e) w -> size w1 < M64 -> turn w e sender m w1 subs1 ->
  (forall ch, sender = member_addr -> m = CWeightsChanged ch -> Forall (fun c => wc_new c < M128) ch) ->
  core (e_time e) w1.
Proof.
  intros C HS HT HM. pose proof (turn_wired _ _ _ _ _ _ (c_wired _ _ C) HS HT) as (W1 & _ & _).
  pose proof (wi_count _ (c_wired _ _ C)) as HCt.
  assert (SAME : forall l, stepped w w1 l -> PollProofs.inv (w_gov w1) -> started_by (w_gov w1) (e_time e) ->
    (forall id, status_of (w_gov w1) id = status_of (w_gov w) id) -> ct_proposals (w_ctl w1) = ct_proposals (w_ctl w) -> core (e_time e) w1).
  { intros l S GI GS ST E. eapply core_same; try eassumption; rewrite E; intros id p Hp; exists p; auto. }
  destruct HT.
  - pose proof (stepped_size _ _ _ H5) as SS. cbn in SS. pose proof H6 as HC6. apply inv_create in H6; [|apply C|lia]. destruct H6 as (GI & EI & EC).
    pose proof (create_status _ _ _ _ _ HC6) as (P1 & (t & P2) & P3). pose proof (create_started _ _ _ _ _ _ HC6 (c_started _ _ C) (N.le_refl _)) as GS.
    assert (P4 : forall i, i <> id -> status_of g i = status_of (w_gov w) i) by (intros i Hi; unfold status_of; rewrite P1; auto).
    assert (FR : oget (ct_proposals (w_ctl w)) id = None).
    { destruct (oget (ct_proposals (w_ctl w)) id) eqn:E; [|reflexivity]. apply (wi_ids _ (c_wired _ _ C)) in E. lia. }
    subst g. pose proof H5 as (S1 & S2 & S3 & S4 & S5). destruct C as [C1 C2 C3 C4 C5 C6 C7 C8 CO C9 C10 C11 C12].
    split; try assumption; rewrite ?S2, ?S3; try assumption.
    + intros i Ha. apply (stepped_acted _ _ _ _ H5) in Ha. apply C8 in Ha. destruct Ha as (p & b & o & n & F1 & F2 & F3).
      exists p, b, o, n. assert (i <> id) by congruence. rewrite H8, oget_oset_ne by congruence. rewrite P4 by assumption. auto.
    + intros s0 i coins Hin. eapply CO. eapply stepped_order; eassumption.
    + intros i. eapply stepped_once; [exact H5|apply C9].
    + intros i p b Hp Hb. rewrite H8, oget_oset in Hp. destruct (N.eqb_spec id i) as [<-|NE]; [congruence|]. rewrite P4 by congruence. eauto.
    + intros i p Hp Hb. rewrite H8, oget_oset in Hp. destruct (N.eqb_spec id i) as [<-|NE]; [eauto|]. rewrite P4 by congruence. eauto.
    + intros i p Hp Ht. rewrite H8, oget_oset in Hp. destruct (N.eqb_spec id i) as [<-|NE]; [|eauto]. injection Hp as <-. auto.
  - apply weight_at_member in H1. destruct H1 as [-> _].
    pose proof (small_weight _ sender (c_small _ _ C)) as HB. subst g.
    eapply core_same; try eassumption.
    + eapply inv_cast; try eassumption. apply C.
    + eapply cast_started; [eassumption|apply C].
    + apply counts_status. eapply cast_only_counts. eassumption.
    + intros i q Hq. rewrite H7 in Hq. destruct (N.eqb_spec id i) as [<-|NE]; [|exists q; auto]. exists p. injection Hq as <-. auto.
    + intros i q Hq. rewrite H7. destruct (N.eqb_spec id i) as [<-|NE]; [|exists q; auto]. exists p'. split; [reflexivity|congruence].
  - apply weight_at_council in H1. subst amount. pose proof (small_weight _ sender (c_council _ _ C)) as HB. subst g.
    eapply SAME; try eassumption.
    + eapply inv_cast; try eassumption. apply C.
    + eapply cast_started; [eassumption|apply C].
    + apply counts_status. eapply cast_only_counts. eassumption.
  - assert (GI : PollProofs.inv g) by (eapply inv_end; [apply C|eassumption]).
    apply end_poll_ok in H2. destruct H2 as (pl0 & Hpl0 & EG & _).
    assert (P4 : forall i, i <> id -> status_of g i = status_of (w_gov w) i).
    { intros i Hi. unfold status_of. rewrite EG. cbn. rewrite oget_oset_ne by congruence. reflexivity. }
    assert (P5 : status_of g id = Some (p_status pl)) by (unfold status_of; rewrite H4; reflexivity).
    assert (GS : started_by g (e_time e)).
    { intros i q Hq. rewrite EG in Hq. cbn in Hq. rewrite oget_oset in Hq. destruct (id =? i); [|eapply (c_started _ _ C); eassumption].
      injection Hq as <-. cbn. eapply (c_started _ _ C); eassumption. }
    rewrite <- H3 in *.
    pose proof H1 as (S1 & S2 & S3 & S4 & S5). destruct C as [C1 C2 C3 C4 C5 C6 C7 C8 CO C9 C10 C11 C12].
    split; try assumption; rewrite ?S2, ?S3; try assumption.
    + intros i Ha. apply (stepped_acted _ _ _ _ H1) in Ha. apply C8 in Ha. destruct Ha as (q & b & o & n & F1 & F2 & F3).
      exists q, b, o, n. assert (i <> id) by congruence. rewrite H6, oget_oset_ne by congruence. rewrite P4 by assumption. auto.
    + intros s0 i coins Hin. eapply CO. eapply stepped_order; eassumption.
    + intros i. eapply stepped_once; [exact H1|apply C9].
    + intros i q b Hq Hb. rewrite H6, oget_oset in Hq. destruct (N.eqb_spec id i) as [<-|NE]; [|rewrite P4 by congruence; eauto].
      eexists. split; [exact P5|exact H5].
    + intros i q Hq Hb. rewrite H6, oget_oset in Hq. destruct (N.eqb_spec id i) as [<-|NE]; [|rewrite P4 by congruence; eauto].
      injection Hq as <-. discriminate.
    + intros i q Hq Ht. rewrite H6, oget_oset in Hq. destruct (N.eqb_spec id i) as [<-|NE]; [|eauto]. injection Hq as <-. cbn in *. eauto.
  - apply updates_spec in H1; [|apply C|apply C|auto]. destruct H1 as (U1 & U2 & U3 & _). subst g. eapply SAME; eassumption.
  - eapply SAME; try eassumption; rewrite ?H2; try apply C. reflexivity.
  - eapply SAME; try eassumption; rewrite ?H1; try apply C. reflexivity.
Qed.

(** * Votes during a turn *)

Lemma open_iff (w : world) t id now : open_poll w t id now <->
  (exists p, oget (ct_proposals (w_ctl w)) id = Some p /\ pi_type p = t) /\ opened (w_gov w) id now = true.
Proof.
  rewrite opened_iff. unfold open_poll, status_of. split.
  - intros (p & pl & ends & H1 & H2 & H3 & H4 & H5). split; [eauto|]. rewrite H3. cbn. exists ends. split; [congruence|exact H5].
  - intros ((p & H1 & H2) & ends & H3 & H4). destruct (oget (g_polls (w_gov w)) id) as [pl|] eqn:E; [|discriminate].
    exists p, pl, ends. cbn in H3. injection H3 as H3. auto.
Qed.

Lemma opened_status g g' id now : status_of g' id = status_of g id -> opened g' id now = opened g id now.
Proof.
  intros E. destruct (opened g id now) eqn:E1, (opened g' id now) eqn:E2; try reflexivity.
  - apply opened_iff in E1. rewrite <- E in E1. apply opened_iff in E1. congruence.
  - apply opened_iff in E2. rewrite E in E2. apply opened_iff in E2. congruence.
Qed.

Lemma cast_votes g e id out voter amount g' : cast_vote g e id out voter amount = Ok g' ->
  forall u i v, get_vote g' u i = Some v -> (u = voter /\ i = id /\ v_amount v = amount) \/ get_vote g u i = Some v.
Proof.
  intros H u i v Hv. apply cast_vote_ok in H. destruct H as (p & _ & _ & _ & _ & _ & _ & ->). unfold cast_result in Hv.
  rewrite get_vote_set_poll, get_set_vote in Hv.
  destruct (andb _ _) eqn:E in Hv; [|right; exact Hv].
  injection Hv as <-. apply andb_true_iff in E. destruct E as [E1 E2]. apply N.eqb_eq in E1, E2. left. cbn. subst. auto.
Qed.

Lemma turn_votes e w sender m w1 subs1 :
  core (e_time e) w -> size w1 < M64 -> turn w e sender m w1 subs1 ->
  ~ (sender = member_addr /\ exists ch, m = CWeightsChanged ch) ->
  votes_current w (e_time e) -> votes_current w1 (e_time e).
Proof.
  intros C HS HT HN V i u v HO Hv. apply open_iff in HO. destruct HO as ((q & Hq & Tq) & HO).
  pose proof (wi_count _ (c_wired _ _ C)) as HCt.
  assert (EM : w_member w1 = w_member w). { destruct HT; match goal with S : stepped _ _ _ |- _ => apply S end. }
  rewrite EM.
  assert (SAME : ct_proposals (w_ctl w1) = ct_proposals (w_ctl w) -> w_gov w1 = w_gov w -> v_amount v = weight_of (w_member w) u).
  { intros E1 E2. apply (V i u v); [|congruence]. apply open_iff. rewrite E1 in Hq. rewrite E2 in HO. eauto. }
  destruct HT.
  - pose proof (stepped_size _ _ _ H5) as SS. cbn in SS. pose proof H6 as HC6. apply inv_create in H6; [|apply C|lia]. destruct H6 as (GI & EI & EC).
    pose proof (create_status _ _ _ _ _ HC6) as (P1 & _ & P3). rewrite H7 in *. rewrite P3 in Hv.
    assert (i <> id).
    { intros ->. destruct (c_ginv _ _ C) as (PI & VI & _). apply VI in Hv. destruct Hv as (_ & _ & _ & _ & _ & pp & Hpp & _).
      apply PI in Hpp. destruct Hpp as (_ & Hpp & _). lia. }
    rewrite H8, oget_oset_ne in Hq by congruence. apply (V i u v); [|exact Hv]. apply open_iff. split; [eauto|].
    rewrite <- HO. symmetry. apply opened_status. unfold status_of. rewrite P1 by assumption. reflexivity.
  - apply weight_at_member in H1. destruct H1 as [-> _]. rewrite H4 in *.
    pose proof (counts_status _ _ (cast_only_counts _ _ _ _ _ _ _ H3)) as ST.
    apply (cast_votes _ _ _ _ _ _ _ H3) in Hv. destruct Hv as [(-> & -> & E)|Hv]; [exact E|].
    apply (V i u v); [|exact Hv]. apply open_iff. rewrite <- (opened_status _ _ _ _ (ST i)). split; [|exact HO].
    rewrite H7 in Hq. destruct (N.eqb_spec id i) as [<-|NE]; [|eauto]. injection Hq as <-. exists p. split; [exact H|]. unfold content in H5. congruence.
  - rewrite H4 in *.
    pose proof (counts_status _ _ (cast_only_counts _ _ _ _ _ _ _ H3)) as ST.
    rewrite H5 in Hq. apply (cast_votes _ _ _ _ _ _ _ H3) in Hv. destruct Hv as [(-> & -> & E)|Hv]; [congruence|].
    apply (V i u v); [|exact Hv]. apply open_iff. rewrite <- (opened_status _ _ _ _ (ST i)). eauto.
  - rewrite H3 in *. apply end_poll_ok in H2. destruct H2 as (pl0 & Hpl0 & EG & _).
    assert (i <> id).
    { intros ->. apply opened_iff in HO. destruct HO as (t & E & _). unfold status_of in E. rewrite H4 in E. cbn in E. destruct (H5 t). congruence. }
    rewrite H6, oget_oset_ne in Hq by congruence. apply (V i u v).
    + apply open_iff. split; [eauto|]. rewrite <- HO. symmetry. apply opened_status. unfold status_of. rewrite EG. cbn. rewrite oget_oset_ne by congruence. reflexivity.
    + rewrite EG in Hv. exact Hv.
  - destruct HN. eauto.
  - auto.
  - auto.
Qed.

Lemma turn_reweigh e w ch w1 subs1 (W : addr -> N) :
  core (e_time e) w -> turn w e member_addr (CWeightsChanged ch) w1 subs1 -> Forall (fun c => wc_new c < M128) ch ->
  votes_as w (e_time e) W -> (forall u, replay u (W u) ch = Some (weight_of (w_member w) u)) -> votes_current w1 (e_time e).
Proof.
  intros C HT HF V HR i u v HO Hv. apply open_iff in HO. destruct HO as ((q & Hq & Tq) & HO).
  assert (EM : w_member w1 = w_member w). { inversion HT; subst; match goal with S : stepped _ _ _ |- _ => apply S end. }
  rewrite EM. inversion HT; subst; try congruence.
  - destruct H.
  - apply updates_spec in H2; [|apply C|apply C|exact HF]. destruct H2 as (_ & _ & ST & U).
    apply U in Hv. destruct Hv as (v0 & Hv0 & Hr). rewrite (opened_status _ _ _ _ (ST i)) in HO. rewrite H4 in Hq.
    apply (Hr (W u)); [exact HO| |apply HR]. apply (V i u v0); [|exact Hv0]. apply open_iff. eauto.
  - destruct H as [H|(c & _ & H)]; [discriminate|]. destruct (council_not_member (eq_sym H)).
Qed.

(** * Payments during a turn *)

Definition cn (x : item) (l : list item) : N := N.of_nat (count_occ item_eq_dec l x).

Lemma cn_nil x : cn x [] = 0.
Proof. reflexivity. Qed.
Lemma cn_app x l l' : cn x (l ++ l') = cn x l + cn x l'.
Proof. unfold cn. rewrite count_occ_app. lia. Qed.

Definition dues (x : item) (g : gov) (m : omap proposal_info) : N := osum (fun id p => cn x (due_for A g id p)) m.

Lemma released_dues x (w : world) : cn x (released A w) = dues x (w_gov w) (ct_proposals (w_ctl w)).
Proof.
  unfold released, dues, osum. induction (elems (ct_proposals (w_ctl w))) as [|kp l IH]; [reflexivity|].
  cbn [flat_map lsum fold_right]. rewrite cn_app, IH. reflexivity.
Qed.

Lemma due_status g g' id p : status_of g' id = status_of g id -> due_for A g' id p = due_for A g id p.
Proof.
  unfold status_of, due_for. intros E. destruct (oget (g_polls g') id), (oget (g_polls g) id); cbn in E; try discriminate; [|reflexivity].
  injection E as ->. reflexivity.
Qed.
Lemma dues_status x g g' m : (forall id p, oget m id = Some p -> status_of g' id = status_of g id) -> dues x g' m = dues x g m.
Proof. intros H. unfold dues. apply osum_ext. intros k v Hv. f_equal. apply due_status. eauto. Qed.

Definition flow (subs : list sub_msg) : list item := flat_map (fun x => payment ctl_addr (sm_msg x)) subs.
Definition outflow (j : job) : list item :=
  match j with
  | JMsg s m => if s =? ctl_addr then payment ctl_addr m else []
  | JSubs self subs => if self =? ctl_addr then flow subs else []
  end.

Definition bal (w : world) (l : list item) (w' : world) : Prop :=
  forall x, cn x (paid A w') + cn x (released A w) = cn x (paid A w) + cn x l + cn x (released A w').

Lemma stepped_paid w w1 l : stepped w w1 l -> paid A w1 = paid A w.
Proof.
  intros (_ & _ & _ & _ & E). unfold paid. rewrite E, flat_map_app. clear E.
  match goal with |- ?a ++ _ = _ => assert (E : a = []) end.
  { induction l as [|gm l IH]; [reflexivity|]. cbn [map flat_map]. rewrite IH. cbn [fst snd gov_msg_of payment].
    destruct (_ =? _); reflexivity. }
  rewrite E. reflexivity.
Qed.

Lemma flow_none subs : Forall (fun x => payment ctl_addr (sm_msg x) = []) subs -> flow subs = [].
Proof. induction 1; [reflexivity|]. unfold flow. cbn [flat_map]. rewrite H. exact IHForall. Qed.

Lemma goes_receiver t dp s to : deposit_goes t dp s to -> to = receiver t dp s.
Proof. destruct 1; reflexivity. Qed.

Lemma hands_flow to a dep : hands_over to a dep -> flow dep = deposit_items ctl_addr to a.
Proof.
  destruct 1 as [| |c ts msgs F]; [reflexivity|reflexivity|]. cbn [deposit_items]. unfold flow.
  induction F as [|t m ts msgs E F IH]; [destruct (to =? ctl_addr); reflexivity|]. subst. cbn [flat_map sm_msg payment map]. rewrite IH.
  destruct (to =? ctl_addr); reflexivity.
Qed.

Lemma turn_bal e w sender m w1 subs1 :
  core (e_time e) w -> size w1 < M64 -> turn w e sender m w1 subs1 ->
  (forall ch, sender = member_addr -> m = CWeightsChanged ch -> Forall (fun c => wc_new c < M128) ch) ->
  (forall id p c, m = CExecuteActions id -> oget (ct_proposals (w_ctl w)) id = Some p -> In c (customs p) -> payment ctl_addr c = []) ->
  paid A w1 = paid A w /\ forall x, cn x (released A w1) = cn x (released A w) + cn x (flow subs1).
Proof.
  intros C HS HT HM HP.
  pose proof (wi_count _ (c_wired _ _ C)) as HCt.
  split. { destruct HT; match goal with S : stepped _ _ _ |- _ => exact (stepped_paid _ _ _ S) end. }
  intros x. rewrite !released_dues.
  destruct HT.
  - rewrite flow_none by (eapply Forall_impl; [|exact H4]; intros a (to & t & ->); cbn; rewrite N.eqb_refl; reflexivity).
    pose proof (stepped_size _ _ _ H5) as SS. cbn in SS. pose proof H6 as HC6. apply inv_create in H6; [|apply C|lia]. destruct H6 as (GI & EI & EC).
    pose proof (create_status _ _ _ _ _ HC6) as (P1 & _ & _). subst g.
    assert (FR : oget (ct_proposals (w_ctl w)) id = None).
    { destruct (oget (ct_proposals (w_ctl w)) id) eqn:E; [|reflexivity]. apply (wi_ids _ (c_wired _ _ C)) in E. lia. }
    rewrite H8. unfold dues at 1.
    pose proof (osum_oset (fun id p => cn x (due_for A (w_gov w1) id p)) (ct_proposals (w_ctl w)) id info) as OS.
    unfold oval in OS. rewrite FR in OS.
    assert (E0 : due_for A (w_gov w1) id info = []) by (unfold due_for; rewrite H0; reflexivity). rewrite E0 in OS.
    fold (dues x (w_gov w1) (ct_proposals (w_ctl w))) in OS. rewrite (dues_status x (w_gov w)) in OS.
    + unfold cn at 2 in OS. unfold cn at 2. cbn in *. lia.
    + intros i q Hq. unfold status_of. rewrite P1; [reflexivity|congruence].
  - subst g. pose proof (counts_status _ _ (cast_only_counts _ _ _ _ _ _ _ H3)) as ST.
    assert (EO : ct_proposals (w_ctl w1) = oset (ct_proposals (w_ctl w)) id p').
    { apply omap_ext. intros k. rewrite H7, oget_oset. reflexivity. }
    rewrite EO. unfold dues at 1.
    pose proof (osum_oset (fun id p => cn x (due_for A (w_gov w1) id p)) (ct_proposals (w_ctl w)) id p') as OS.
    unfold oval in OS. rewrite H in OS.
    assert (E0 : due_for A (w_gov w1) id p' = due_for A (w_gov w1) id p).
    { unfold due_for, content in *. injection H5 as F1 F2 F3. rewrite H6, F2. reflexivity. }
    rewrite E0 in OS. fold (dues x (w_gov w1) (ct_proposals (w_ctl w))) in OS. rewrite (dues_status x (w_gov w)) in OS by (intros; apply ST).
    unfold flow. cbn [flat_map]. unfold cn at 2. cbn. lia.
  - subst g. pose proof (counts_status _ _ (cast_only_counts _ _ _ _ _ _ _ H3)) as ST. rewrite H5, (dues_status x (w_gov w)) by (intros; apply ST).
    unfold cn, flow. cbn. lia.
  - subst g. apply end_poll_ok in H2. destruct H2 as (pl0 & Hpl0 & EG & _).
    assert (P4 : forall i, i <> id -> status_of (w_gov w1) i = status_of (w_gov w) i).
    { intros i Hi. unfold status_of. rewrite EG. cbn. rewrite oget_oset_ne by congruence. reflexivity. }
    set (p' := mk_info (pi_type p) (Some e) (pi_earliest p) (pi_deposit p) (pi_actions p)) in *.
    assert (FL : flow ((match p_status pl with Passed _ _ => [mk_sub (run_order A id) (ReplyAlways 3)] | _ => [] end) ++ dep) = due_for A (w_gov w1) id p').
    { unfold flow. rewrite flat_map_app. match goal with |- ?a ++ _ = _ => assert (E : a = []) by (destruct (p_status pl); reflexivity) end.
      rewrite E. cbn [app]. fold (flow dep). unfold due_for. rewrite H4. cbn [p' pi_executed_at pi_deposit].
      destruct (pi_deposit p) as [d|] eqn:Ed; [|subst dep; reflexivity].
      assert (pi_type p = General) as TG. { destruct (pi_type p) eqn:ET; [reflexivity|]. apply (c_plain _ _ C _ _ H) in ET. congruence. }
      destruct (H7 TG) as (to & G & Hh). apply goes_receiver in G. subst to. apply hands_flow. exact Hh. }
    rewrite FL, H6. unfold dues at 1.
    pose proof (osum_change (fun id p => cn x (due_for A (w_gov w) id p)) (fun id p => cn x (due_for A (w_gov w1) id p)) (ct_proposals (w_ctl w)) id p') as OC.
    cbv beta in OC. unfold dues.
    assert (E0 : oval (fun i q => cn x (due_for A (w_gov w) i q)) (ct_proposals (w_ctl w)) id = 0).
    { unfold oval. rewrite H. unfold due_for. rewrite H0. reflexivity. }
    rewrite E0 in OC. rewrite N.add_0_r in OC. apply OC.
    intros k v Hk. f_equal. apply due_status. apply P4. exact Hk.
  - subst g. apply updates_spec in H1; [|apply C|apply C|auto]. destruct H1 as (U1 & U2 & U3 & _).
    rewrite H3, (dues_status x (w_gov w)) by (intros; apply U3). unfold cn, flow. cbn. lia.
  - rewrite H2, H3, flow_none; [unfold cn; cbn; lia|]. eapply Forall_impl; [|exact H4]. cbv beta. intros a (_ & [Hin|(_ & Hp)]); [|exact Hp]. eauto.
  - rewrite H1, H2, flow_none; [unfold cn; cbn; lia|]. eapply Forall_impl; [|exact H3]. cbv beta. intros a (_ & _ & Hp). exact Hp.
Qed.

(** * The second induction *)

Definition dull (m : cosmos_msg) : Prop := forall to cm coins, m <> WasmExecute to (ToController cm) coins.

Definition steady (x : sub_msg) : Prop := sm_reply x = ReplyNever /\ safe (sm_msg x).

(** what may be delivered in world [w] *)
Definition jok (w : world) (j : job) : Prop :=
  match j with
  | JMsg s m =>
      (s = ctl_addr -> safe m \/ exists id, m = run_order A id /\ ready w id /\ ~ acted A w id) /\
      (s = member_addr -> dull m)
  | JSubs self subs =>
      (self = ctl_addr -> Forall steady subs \/
         exists id rest, subs = mk_sub (run_order A id) (ReplyAlways 3) :: rest /\ Forall steady rest /\ ready w id /\ ~ acted A w id) /\
      (self = member_addr -> Forall (fun x => sm_reply x = ReplyNever /\ dull (sm_msg x)) subs)
  end.

Lemma jok_fine w j : jok w j -> match j with JSubs self subs => self = ctl_addr -> fine subs | JMsg _ _ => True end.
Proof.
  destruct j as [s m|self subs]; [auto|]. intros (H & _) E. destruct (H E) as [F|(id & rest & -> & F & _)].
  - eapply Forall_impl; [|exact F]. intros a (Ha & _). auto.
  - constructor; [auto|]. eapply Forall_impl; [|exact F]. intros a (Ha & _). auto.
Qed.

Definition ahead (w w' : world) : Prop := kept w w' /\ exists l, w_log w' = l ++ w_log w.

Lemma ahead_refl w : ahead w w.
Proof. split; [apply kept_refl|]. exists []. reflexivity. Qed.
Lemma ahead_trans a b c : ahead a b -> ahead b c -> ahead a c.
Proof.
  intros (K1 & l1 & E1) (K2 & l2 & E2). split; [exact (kept_trans _ _ _ K1 K2)|]. exists (l2 ++ l1). rewrite E2, E1, app_assoc. reflexivity.
Qed.
Lemma go_ahead n w e j w' d : go n w e j = Ok (w', d) -> wired w -> jok w j -> size w' < M64 -> ahead w w'.
Proof.
  intros H HW HJ HS. split; [|eapply go_log; exact H]. eapply layer1; try eassumption. apply (jok_fine w). exact HJ.
Qed.

Lemma customs_content p p' : content p' = content p -> customs p' = customs p.
Proof. unfold content, customs. intros H. injection H as _ _ ->. reflexivity. Qed.
Lemma ahead_acted w w' id : ahead w w' -> acted A w id -> acted A w' id.
Proof. intros (_ & l & E) H. unfold acted in *. rewrite E. apply in_or_app. auto. Qed.
Lemma calm_back w w' : ahead w w' -> calm A w' -> calm A w.
Proof.
  intros HA' H id p m Ha Hp Hm. pose proof (ahead_acted _ _ _ HA' Ha) as Ha'. destruct HA' as ((_ & _ & K) & _).
  destruct (K _ _ Hp) as (p' & Hp' & Hc & _). eapply H; [exact Ha'|exact Hp'|]. rewrite (customs_content _ _ Hc). exact Hm.
Qed.
Lemma thrifty_back w w' : ahead w w' -> thrifty A w' -> thrifty A w.
Proof.
  intros HA' H id p m Ha Hp Hm. pose proof (ahead_acted _ _ _ HA' Ha) as Ha'. destruct HA' as ((_ & _ & K) & _).
  destruct (K _ _ Hp) as (p' & Hp' & Hc & _). eapply H; [exact Ha'|exact Hp'|]. rewrite (customs_content _ _ Hc). exact Hm.
Qed.

Lemma turn_jok e w sender m w1 subs1 :
  core (e_time e) w -> turn w e sender m w1 subs1 ->
  (forall id p c, m = CExecuteActions id -> oget (ct_proposals (w_ctl w)) id = Some p -> In c (customs p) -> safe c) ->
  jok w1 (JSubs ctl_addr subs1).
Proof.
  intros C HT HP. split; [intros _|intros E; destruct (member_not_ctl (eq_sym E))]. destruct HT.
  - left. eapply Forall_impl; [|exact H4]. intros a (to & t & ->). split; [reflexivity|]. cbn. repeat split; intros; discriminate.
  - left. constructor.
  - left. constructor.
  - assert (H9 : Forall steady dep) by (eapply Forall_impl; [|exact H8]; intros a (Ha & Hb & _); split; assumption).
    destruct (p_status pl) as [t|o n|r] eqn:Es; [left; exact H9| |left; exact H9]. right. exists id, dep.
    split; [reflexivity|]. split; [exact H9|]. split.
    + exists (mk_info (pi_type p) (Some e) (pi_earliest p) (pi_deposit p) (pi_actions p)), e, o, n. rewrite H6, oget_oset_eq.
      split; [reflexivity|]. split; [reflexivity|]. unfold status_of. rewrite H3, H4. cbn. congruence.
    + intros Ha. apply (stepped_acted _ _ _ _ H1) in Ha. apply (c_acted _ _ C) in Ha. destruct Ha as (q & b & o' & n' & F1 & F2 & _). congruence.
  - left. constructor; [|constructor]. split; [reflexivity|]. apply safe_to, funds_apart.
  - left. eapply Forall_impl; [|exact H4]. cbv beta. intros a (Hr & [Hin|((Hs & _) & _)]); split; eauto.
  - left. eapply Forall_impl; [|exact H3]. cbv beta. intros a (Hr & (Hs & _) & _). split; assumption.
Qed.

Lemma set_ctl_same (w : world) : set_ctl w (w_ctl w) = w.
Proof. destruct w. reflexivity. Qed.

Lemma start_core now w s m x : core now w ->
  (forall id coins, m = WasmExecute ctl_addr (ToController (CExecuteActions id)) coins -> s = ctl_addr /\ coins = [] /\ ready w id /\ ~ acted A w id) ->
  core now (set_ext (note w s m) x).
Proof. intros C H. eapply quiet_core; [apply quiet_ext|]. apply note_core; assumption. Qed.

Lemma start_paid (w : world) s m x : paid A (set_ext (note w s m) x) = outflow (JMsg s m) ++ paid A w.
Proof. reflexivity. Qed.
Lemma start_released (w : world) s m x : released A (set_ext (note w s m) x) = released A w.
Proof. reflexivity. Qed.

Lemma member_core now w st : core now w -> small st -> okeys (m_hooks (members_of st)) = [ctl_addr] ->
  m_enterprise (members_of st) = a_enterprise A -> core now (set_member w st).
Proof.
  intros C S1 S2 S3. destruct (member_wired w st (c_wired _ _ C)) as (W1 & _).
  destruct C as [C1 C2 C3 C4 C5 C6 C7 C8 CO C9 C10 C11 C12]. split; try assumption.
Qed.

Lemma hook_controller now w : core now w -> forall r, mo_controller (member_oracle_of Out A w (w_member w)) = Ok r -> r = ctl_addr.
Proof.
  intros C r H. cbn in H. rewrite (c_ent _ _ C) in H. destruct (wired_components _ (c_wired _ _ C)) as (att & HC). cbn in HC.
  rewrite (wi_of _ (c_wired _ _ C)) in HC. rewrite HC in H. cbn in H. congruence.
Qed.

Lemma out_dull o : (forall h ch, o <> OReport h ch) -> dull (sm_msg (member_sub o)).
Proof.
  intros H to cm coins E. destruct o as [h ch|a t n|c t k]; [destruct (H h ch eq_refl)| |discriminate]. destruct a; discriminate.
Qed.

Lemma bal_nil_paid w w' l : paid A w' = paid A w -> released A w' = released A w -> l = [] -> bal w l w'.
Proof. intros E1 E2 -> x. rewrite E1, E2. unfold cn. cbn. lia. Qed.
Lemma bal_trans a b c l1 l2 : bal a l1 b -> bal b l2 c -> bal a (l1 ++ l2) c.
Proof. intros H1 H2 x. specialize (H1 x). specialize (H2 x). rewrite cn_app. lia. Qed.

Lemma start_bal (w w' : world) s m x l : bal (set_ext (note w s m) x) l w' -> l = [] -> bal w (outflow (JMsg s m)) w'.
Proof. intros H -> y. specialize (H y). rewrite start_paid, start_released, cn_app, cn_nil in H. lia. Qed.

Lemma quiet_bal w w1 : quiet w w1 -> bal w [] w1.
Proof.
  intros (Q1 & Q2 & _ & Q4 & _ & _) x. unfold paid, released. rewrite Q1, Q2, Q4. unfold cn. cbn. lia.
Qed.

Lemma turn_stepped w e sender m w1 subs1 : turn w e sender m w1 subs1 -> exists l, stepped w w1 l.
Proof. destruct 1; eauto. Qed.

Lemma turn_ahead w e sender m w1 subs1 : wired w -> size w1 < M64 -> turn w e sender m w1 subs1 -> ahead w w1.
Proof.
  intros HW HS T. split; [apply (turn_wired _ _ _ _ _ _ HW HS T)|]. apply turn_stepped in T. destruct T as (l & _ & _ & _ & _ & E). eauto.
Qed.

Lemma outflow_cons self x rest : outflow (JSubs self (x :: rest)) = outflow (JMsg self (sm_msg x)) ++ outflow (JSubs self rest).
Proof. cbn [outflow]. destruct (self =? ctl_addr); reflexivity. Qed.

Lemma layer2 n : forall w e j w' d, go n w e j = Ok (w', d) ->
  core (e_time e) w -> votes_current w (e_time e) -> jok w j -> size w' < M64 -> calm A w' ->
  core (e_time e) w' /\ votes_current w' (e_time e) /\ (thrifty A w' -> bal w (outflow j) w').
Proof.
  induction n as [n IH] using lt_wf_ind. intros w e j w' d H C V J HS HC.
  pose proof (go_ahead _ _ _ _ _ _ H (c_wired _ _ C) J HS) as AH.
  destruct j as [s m|self [|x rest]].
  - destruct n as [|n]; [discriminate|].
    assert (HN : forall id coins, m = WasmExecute ctl_addr (ToController (CExecuteActions id)) coins ->
      s = ctl_addr /\ coins = [] /\ ready w id /\ ~ acted A w id).
    { intros id coins ->. apply go_msg in H. destruct H as [(to & wm & c & x & w1 & subs & d' & E & _ & Hh & _)|(NE & _)]; [|destruct (NE _ _ _ eq_refl)].
      injection E as <- <- <-. assert (s = ctl_addr) as ->.
      { apply handle_cases in Hh. destruct Hh as [(_ & cm & s' & EC & He & _)|[(E & _)|[(E & _)|(E & _)]]];
          [|destruct (gov_not_ctl (eq_sym E))|destruct (member_not_ctl (eq_sym E))|destruct (E eq_refl)].
        injection EC as <-. destruct (N.eq_dec s ctl_addr) as [E|E]; [exact E|]. rewrite actions_self_only in He by exact E. discriminate. }
      destruct J as (J & _). destruct (J eq_refl) as [SF|(id' & E & R & NA)].
      - exfalso. destruct SF as (SF & _). exact (SF eq_refl _ eq_refl).
      - unfold run_order in E. injection E as -> ->. auto. }
    apply go_msg in H. destruct H as [(to & wm & coins & x & w1 & subs & d' & -> & _ & Hh & Hg)|(NE & Ho)].
    + assert (C0 : core (e_time e) (set_ext (note w s (WasmExecute to wm coins)) x)) by (apply start_core; assumption).
      assert (V0 : votes_current (set_ext (note w s (WasmExecute to wm coins)) x) (e_time e)) by exact V.
      assert (A0 : acted A (set_ext (note w s (WasmExecute to wm coins)) x) = acted A (note w s (WasmExecute to wm coins))) by reflexivity.
      pose proof (start_bal w w' s (WasmExecute to wm coins) x) as SB.
      assert (LOG0 : w_log (set_ext (note w s (WasmExecute to wm coins)) x) = (s, WasmExecute to wm coins) :: w_log w) by reflexivity.
      set (w0 := set_ext (note w s (WasmExecute to wm coins)) x) in *.
      apply handle_cases in Hh. destruct Hh as [(-> & cm & s' & -> & He & -> & _)|[(-> & gm & g & -> & He & -> & ->)|[(-> & mm & s' & outs & -> & He & -> & -> & _)|(N1 & N2 & N3 & Q)]]].
      * (* the controller *)
        assert (SM : s <> member_addr). { intros E. destruct J as (_ & J). exact (J E _ _ _ eq_refl). }
        destruct (ctl_turn _ _ _ _ _ _ _ _ _ _ (c_wired _ _ C0) He Hg) as (n' & w1 & subs1 & L & T & d2 & G).
        pose proof (go_size _ _ _ _ _ _ G) as GS1.
        assert (HS1 : size w1 < M64) by lia.
        assert (AH1 : ahead w1 w').
        { split; [|eapply go_log; exact G]. destruct (turn_wired _ _ _ _ _ _ (c_wired _ _ C0) HS1 T) as (W1 & _ & F1).
          eapply layer1; [exact G|exact W1|intros _; exact F1|exact HS]. }
        assert (AH0 : ahead w0 w').
        { eapply ahead_trans; [|exact AH1]. eapply turn_ahead; [apply C0|exact HS1|exact T]. }
        assert (AC : forall id, cm = CExecuteActions id -> s = ctl_addr -> acted A w0 id).
        { intros id -> ->. destruct J as (J & _). destruct (J eq_refl) as [SF|(id' & E & R & NA)].
          - exfalso. destruct SF as (SF & _). exact (SF eq_refl _ eq_refl).
          - unfold run_order in E. injection E as <- ->. unfold acted. rewrite LOG0. left. reflexivity. }
        assert (SA : forall id, cm = CExecuteActions id -> s = ctl_addr).
        { intros id ->. inversion T; subst; try reflexivity; [destruct H|]. destruct H as [H|(c & H & _)]; discriminate. }
        assert (C1 : core (e_time e) w1) by (eapply turn_core; [exact C0|lia|exact T|congruence]).
        assert (V1 : votes_current w1 (e_time e)) by (eapply turn_votes; [exact C0|lia|exact T|intros (E & _); congruence|exact V0]).
        assert (J1 : jok w1 (JSubs ctl_addr subs1)).
        { eapply turn_jok; [exact C0|exact T|]. intros id p c E Hp Hin. apply harmless_safe.
          eapply (calm_back _ _ AH0 HC); [apply AC; eauto|exact Hp|exact Hin]. }
        destruct (IH n' ltac:(lia) _ _ _ _ _ G C1 V1 J1 HS HC) as (C2 & V2 & B2).
        split; [exact C2|]. split; [exact V2|]. intros TH. apply (SB []); [|reflexivity].
        assert (TB : paid A w1 = paid A w0 /\ forall x, cn x (released A w1) = cn x (released A w0) + cn x (flow subs1)).
        { eapply turn_bal; [exact C0|lia|exact T|congruence|]. intros id p c E Hp Hin.
          eapply (thrifty_back _ _ AH0 TH); [apply AC; eauto|exact Hp|exact Hin]. }
        destruct TB as (TB1 & TB2). intros y. specialize (B2 TH y). cbn [outflow] in B2. rewrite N.eqb_refl in B2. rewrite TB1, TB2 in B2. rewrite cn_nil. lia.
      * (* governance *)
        apply gov_execute_ok in He. destruct He as (EA & _). rewrite (wi_admin _ (c_wired _ _ C0)) in EA.
        exfalso. destruct J as (J & _). destruct (J EA) as [SF|(id & E & _)].
        -- destruct SF as (_ & SF & _). exact (SF eq_refl _ eq_refl).
        -- unfold run_order in E. injection E as E _. destruct (gov_not_ctl E).
      * (* membership *)
        pose proof (accepts_deed (w_member w0) (mk_mcall (member_oracle_of Out A w0 (w_member w0)) e s coins mm) s' outs (c_small _ _ C0) He) as (DD & TM).
        cbn [mc_msg mc_oracle mc_sender] in TM.
        assert (TA : tame_member mm = true).
        { destruct (tame_member mm) eqn:Et; [reflexivity|]. exfalso. apply (hook_controller _ _ C0) in TM. destruct J as (J & _).
          destruct (J TM) as [SF|(id & E & _)].
          - destruct SF as (_ & _ & SF). rewrite (SF eq_refl _ eq_refl) in Et. discriminate.
          - unfold run_order in E. injection E as E _. destruct (member_not_ctl E). }
        rewrite TA in TM.
        assert (SML : small s') by exact (accepts_small (w_member w0) (mk_mcall (member_oracle_of Out A w0 (w_member w0)) e s coins mm) _ _ (c_small _ _ C0) He).
        assert (ENT : m_enterprise (members_of s') = a_enterprise A).
        { destruct (settings_by_controller (w_member w0) (mk_mcall (member_oracle_of Out A w0 (w_member w0)) e s coins mm) _ _ He) as (E & _).
          rewrite E. apply C0. }
        assert (C1 : core (e_time e) (set_member w0 s')).
        { apply member_core; [exact C0|exact SML| |exact ENT]. rewrite TM. apply C0. }
        destruct DD as [DW DT DR|ch DO DT DF].
        -- assert (V1 : votes_current (set_member w0 s') (e_time e)).
           { intros id u v HO Hv. change (weight_of (w_member (set_member w0 s')) u) with (weight_of s' u). rewrite (V0 id u v HO Hv).
             unfold weight_of. rewrite DW. reflexivity. }
           assert (J1 : jok (set_member w0 s') (JSubs member_addr (map member_sub outs))).
           { split; [intros E; destruct (member_not_ctl E)|]. intros _. apply Forall_forall. intros y Hy. apply in_map_iff in Hy.
             destruct Hy as (o & <- & Ho). split; [reflexivity|]. apply out_dull. intros h ch ->. exact (DR h ch Ho). }
           destruct (IH n ltac:(lia) _ _ _ _ _ Hg C1 V1 J1 HS HC) as (C2 & V2 & B2).
           split; [exact C2|]. split; [exact V2|]. intros TH. specialize (B2 TH). apply (SB []); [|reflexivity].
           cbn [outflow] in B2. destruct (N.eqb_spec member_addr ctl_addr) as [E|_]; [destruct (member_not_ctl E)|]. exact B2.
        -- assert (TR : forall u, replay u (weight_of (w_member w0) u) ch = Some (weight_of s' u)).
           { intros u. pose proof (accepts_told (w_member w0) (mk_mcall (member_oracle_of Out A w0 (w_member w0)) e s coins mm) s' outs
               (proj2 (proj1 (c_small _ _ C0))) He) as TD. cbn [mc_msg] in TD.
             specialize (TD ltac:(intros l ->; discriminate) ctl_addr u). destruct TD as (TD & _).
             assert (HH : ohas (m_hooks (members_of s')) ctl_addr = true).
             { rewrite TM. apply ohas_true, okeys_In. rewrite (c_hooks _ _ C0). left. reflexivity. }
             rewrite DO, told_report, HH in TD. apply TD. rewrite <- TM. exact HH. }
           rewrite DO in Hg. unfold report in Hg. rewrite TM, (c_hooks _ _ C0) in Hg. cbn [map member_sub] in Hg.
           set (msg := WasmExecute ctl_addr (ToController (CWeightsChanged ch)) []) in *.
           apply go_cons in Hg. destruct Hg as (n1 & -> & Hg). cbn [sm_msg sm_reply plain] in Hg.
           destruct Hg as [(w1' & d1 & H1 & [(_ & H2)|(id & w2 & more & w3 & d3 & [E|E] & _)])|(id & w2 & more & w3 & d3 & _ & E & _)]; try discriminate.
           apply go_nil in H2. destruct H2 as [-> _].
           destruct n1 as [|n2]; [discriminate|].
           apply go_msg in H1. destruct H1 as [(to2 & wm2 & coins2 & x2 & w12 & subs2 & d'2 & EM & _ & Hh & Hg)|(NE & _)]; [|destruct (NE _ _ _ eq_refl)].
           unfold msg in EM. injection EM as <- <- <-. fold msg in Hh.
           assert (C00 : core (e_time e) (set_ext (note (set_member w0 s') member_addr msg) x2)).
           { apply start_core; [exact C1|]. intros id c E. discriminate. }
           assert (V00 : votes_as (set_ext (note (set_member w0 s') member_addr msg) x2) (e_time e) (weight_of (w_member w0))) by exact V0.
           assert (P00 : paid A (set_ext (note (set_member w0 s') member_addr msg) x2) = paid A w0).
           { rewrite start_paid. cbn [outflow]. destruct (N.eqb_spec member_addr ctl_addr) as [E|_]; [destruct (member_not_ctl E)|]. reflexivity. }
           assert (R00 : released A (set_ext (note (set_member w0 s') member_addr msg) x2) = released A w0) by reflexivity.
           assert (M00 : w_member (set_ext (note (set_member w0 s') member_addr msg) x2) = s') by reflexivity.
           set (w00 := set_ext (note (set_member w0 s') member_addr msg) x2) in *.
           apply handle_cases in Hh. destruct Hh as [(_ & cm & cs & EC & He2 & -> & _)|[(E & _)|[(E & _)|(E & _)]]];
             [|destruct (gov_not_ctl (eq_sym E))|destruct (member_not_ctl (eq_sym E))|destruct (E eq_refl)].
           injection EC as <-.
           destruct (ctl_turn _ _ _ _ _ _ _ _ _ _ (c_wired _ _ C00) He2 Hg) as (n' & w1 & subs1 & L & T & d2 & G).
           pose proof (go_size _ _ _ _ _ _ G) as GS1.
           assert (HS1 : size w1 < M64) by lia.
           assert (CC : core (e_time e) w1) by (eapply turn_core; [exact C00|exact HS1|exact T|intros ch' _ E; injection E as <-; exact DF]).
           assert (VV : votes_current w1 (e_time e)).
           { eapply turn_reweigh; [exact C00|exact T|exact DF|exact V00|]. intros u. rewrite M00. apply TR. }
           assert (JJ : jok w1 (JSubs ctl_addr subs1)) by (eapply turn_jok; [exact C00|exact T|discriminate]).
           destruct (IH n' ltac:(lia) _ _ _ _ _ G CC VV JJ HS HC) as (C2 & V2 & B2).
           split; [exact C2|]. split; [exact V2|]. intros TH. apply (SB []); [|reflexivity].
           assert (TB : paid A w1 = paid A w00 /\ forall x, cn x (released A w1) = cn x (released A w00) + cn x (flow subs1)).
           { eapply turn_bal; [exact C00|exact HS1|exact T|intros ch' _ E; injection E as <-; exact DF|discriminate]. }
           destruct TB as (TB1 & TB2). intros y. specialize (B2 TH y). cbn [outflow] in B2. rewrite N.eqb_refl in B2.
           rewrite TB1, TB2, P00, R00 in B2. rewrite cn_nil. lia.
      * (* the others *)
        destruct (IH n ltac:(lia) _ _ _ _ _ Hg (quiet_core _ _ _ Q C0) (quiet_votes _ _ _ Q V0)) as (C2 & V2 & B2); [|exact HS|exact HC|].
        { split; intros E; [destruct (N1 E)|destruct (N3 E)]. }
        split; [exact C2|]. split; [exact V2|]. intros TH. specialize (B2 TH). apply (SB []); [|reflexivity].
        cbn [outflow] in B2. destruct (N.eqb_spec to ctl_addr) as [E|_]; [destruct (N1 E)|].
        exact (bal_trans _ _ _ [] [] (quiet_bal _ _ Q) B2).
    + assert (C0 : core (e_time e) (note w s m)) by (apply note_core; assumption).
      apply other_quiet in Ho. split; [exact (quiet_core _ _ _ Ho C0)|]. split; [exact (quiet_votes _ _ _ Ho (V : votes_current (note w s m) (e_time e)))|].
      intros _. apply (start_bal w w' s m (w_ext w) []); [|reflexivity]. exact (quiet_bal (set_ext (note w s m) (w_ext w)) _ Ho).
  - apply go_nil in H. destruct H as [-> _]. split; [exact C|]. split; [exact V|]. intros _. apply bal_nil_paid; [reflexivity|reflexivity|].
    cbn. destruct (self =? ctl_addr); reflexivity.
  - apply go_cons in H. destruct H as (n' & -> & H).
    assert (JR : forall w2, jok w2 (JSubs self rest)).
    { intros w2. destruct J as (J1 & J2). split; intros E.
      - left. destruct (J1 E) as [F|(id & rest' & EQ & F & _)]; [inversion F; assumption|]. injection EQ as _ ->. exact F.
      - specialize (J2 E). inversion J2; assumption. }
    assert (JX : jok w (JMsg self (sm_msg x))).
    { destruct J as (J1 & J2). split; intros E.
      - destruct (J1 E) as [F|(id & rest' & EQ & F & R & NA)]; [left; inversion F as [|? ? (_ & SF)]; exact SF|].
        right. injection EQ as -> _. exists id. auto.
      - specialize (J2 E). inversion J2 as [|? ? (_ & DU)]. exact DU. }
    assert (REST : forall wa da, core (e_time e) wa -> votes_current wa (e_time e) -> go n' wa e (JSubs self rest) = Ok (w', da) ->
      core (e_time e) w' /\ votes_current w' (e_time e) /\ (thrifty A w' -> bal wa (outflow (JSubs self rest)) w')).
    { intros wa da Ca Va Ga. eapply (IH n'); [lia|exact Ga|exact Ca|exact Va|apply JR|exact HS|exact HC]. }
    assert (RAH : forall wa da, core (e_time e) wa -> go n' wa e (JSubs self rest) = Ok (w', da) -> ahead wa w').
    { intros wa da Ca Ga. eapply go_ahead; [exact Ga|apply Ca|apply JR|exact HS]. }
    assert (HR : forall wa id r wb more wc dc dd, sm_reply x = ReplySuccess id \/ sm_reply x = ReplyAlways id ->
      core (e_time e) wa -> votes_current wa (e_time e) -> on_reply wa e self id r = Ok (wb, more) ->
      go n' wb e (JSubs self more) = Ok (wc, dc) -> go n' wc e (JSubs self rest) = Ok (w', dd) ->
      ahead wa w' /\ core (e_time e) w' /\ votes_current w' (e_time e) /\ (thrifty A w' -> bal wa (outflow (JSubs self rest)) w') /\
      (self = ctl_addr -> exists i, sm_msg x = run_order A i)).
    { intros wa id r wb more wc dc dd HI Ca Va Hr Hg1 Hg2.
      apply reply_cases in Hr. destruct Hr as [(-> & s' & Hr & ->)|(N & Q)].
      - assert (EX : exists i, x = mk_sub (run_order A i) (ReplyAlways 3)).
        { destruct J as (J1 & _). destruct (J1 eq_refl) as [F|(i & rest' & EQ & _)].
          - inversion F as [|? ? (E & _)]; subst. destruct HI; congruence.
          - injection EQ as -> _. eauto. }
        destruct EX as (i & EX). assert (id = 3) as -> by (rewrite EX in HI; cbn in HI; destruct HI; congruence).
        apply reply_3 in Hr. destruct Hr as [-> ->]. rewrite set_ctl_same in Hg1. apply go_nil in Hg1. destruct Hg1 as [-> _].
        destruct (REST _ _ Ca Va Hg2) as (C2 & V2 & B2). split; [exact (RAH _ _ Ca Hg2)|]. split; [exact C2|]. split; [exact V2|]. split; [exact B2|].
        intros _. exists i. rewrite EX. reflexivity.
      - assert (NM : self <> member_addr).
        { intros E. destruct J as (_ & J2). specialize (J2 E). inversion J2 as [|? ? (F & _)]; subst. destruct HI; congruence. }
        assert (JM : jok wb (JSubs self more)) by (split; intros E; [destruct (N E)|destruct (NM E)]).
        assert (Cb := quiet_core _ _ _ Q Ca). assert (Vb := quiet_votes _ _ _ Q Va).
        pose proof (go_size _ _ _ _ _ _ Hg2) as S2.
        assert (Ab : ahead wb wc) by (eapply go_ahead; [exact Hg1|apply Cb|exact JM|lia]).
        assert (Wc : wired wc) by (eapply layer1; [exact Hg1|apply Cb|intros E; destruct (N E)|lia]).
        assert (Ac : ahead wc w') by (eapply go_ahead; [exact Hg2|exact Wc|apply JR|exact HS]).
        destruct (IH n' ltac:(lia) _ _ _ _ _ Hg1 Cb Vb JM ltac:(lia) (calm_back _ _ Ac HC)) as (Cc & Vc & Bc).
        destruct (REST _ _ Cc Vc Hg2) as (C2 & V2 & B2).
        assert (Aa : ahead wa wb). { split; [apply (quiet_wired _ _ Q (c_wired _ _ Ca))|]. exists []. apply Q. }
        split; [exact (ahead_trans _ _ _ Aa (ahead_trans _ _ _ Ab Ac))|]. split; [exact C2|]. split; [exact V2|]. split; [|intros E; destruct (N E)].
        intros TH. specialize (Bc (thrifty_back _ _ Ac TH)). specialize (B2 TH). cbn [outflow] in *.
        destruct (N.eqb_spec self ctl_addr) as [E|_]; [destruct (N E)|].
        exact (bal_trans _ _ _ [] [] (quiet_bal _ _ Q) (bal_trans _ _ _ [] [] Bc B2)). }
    destruct H as [(w1 & d1 & H1 & [(E & H2)|(id & w2 & more & w3 & d3 & E & H2 & H3 & H4)])|(id & w2 & more & w3 & d3 & _ & E & H2 & H3 & H4)].
    + pose proof (go_size _ _ _ _ _ _ H2) as S2.
      assert (W1 : wired w1) by (eapply layer1; [exact H1|apply C|exact I|lia]).
      assert (A1 : ahead w1 w') by (eapply go_ahead; [exact H2|exact W1|apply JR|exact HS]).
      destruct (IH n' ltac:(lia) _ _ _ _ _ H1 C V JX ltac:(lia) (calm_back _ _ A1 HC)) as (C1 & V1 & B1).
      destruct (REST _ _ C1 V1 H2) as (C2 & V2 & B2). split; [exact C2|]. split; [exact V2|].
      intros TH. rewrite outflow_cons. exact (bal_trans _ _ _ _ _ (B1 (thrifty_back _ _ A1 TH)) (B2 TH)).
    + assert (S1 : size w1 <= size w').
      { pose proof (go_size _ _ _ _ _ _ H3). pose proof (go_size _ _ _ _ _ _ H4). apply reply_log in H2. unfold size in *. rewrite H2 in *. lia. }
      assert (W1 : wired w1) by (eapply layer1; [exact H1|apply C|exact I|lia]).
      assert (A1 : ahead w1 w').
      { clear HR. apply reply_cases in H2. destruct H2 as [(-> & s' & Hr & ->)|(N & Q)].
        - assert (id = 3) as ->.
          { destruct J as (J1 & _). destruct (J1 eq_refl) as [F|(i & rest' & EQ & _)].
            - inversion F as [|? ? (E1 & _)]; subst. destruct E; congruence.
            - injection EQ as -> _. cbn in E. destruct E; congruence. }
          apply reply_3 in Hr. destruct Hr as [-> ->]. rewrite set_ctl_same in H3. apply go_nil in H3. destruct H3 as [-> _].
          eapply go_ahead; [exact H4|exact W1|apply JR|exact HS].
        - assert (NM : self <> member_addr).
          { intros E1. destruct J as (_ & J2). specialize (J2 E1). inversion J2 as [|? ? (F & _)]; subst. destruct E; congruence. }
          pose proof (go_size _ _ _ _ _ _ H4) as S2. destruct (quiet_wired _ _ Q W1) as (W2 & K2).
          assert (J3 : jok w2 (JSubs self more)) by (split; intros E1; [destruct (N E1)|destruct (NM E1)]).
          assert (A2 : ahead w2 w3) by (eapply go_ahead; [exact H3|exact W2|exact J3|lia]).
          assert (W3 : wired w3) by (eapply layer1; [exact H3|exact W2|intros E1; destruct (N E1)|lia]).
          assert (A3 : ahead w3 w') by (eapply go_ahead; [exact H4|exact W3|apply JR|exact HS]).
          eapply ahead_trans; [|exact (ahead_trans _ _ _ A2 A3)]. split; [exact K2|]. exists []. apply Q. }
      destruct (IH n' ltac:(lia) _ _ _ _ _ H1 C V JX ltac:(lia) (calm_back _ _ A1 HC)) as (C1 & V1 & B1).
      destruct (HR _ _ _ _ _ _ _ _ E C1 V1 H2 H3 H4) as (_ & C2 & V2 & B2 & _). split; [exact C2|]. split; [exact V2|].
      intros TH. rewrite outflow_cons. exact (bal_trans _ _ _ _ _ (B1 (thrifty_back _ _ A1 TH)) (B2 TH)).
    + destruct (HR _ _ _ _ _ _ _ _ (or_intror E) C V H2 H3 H4) as (_ & C2 & V2 & B2 & EX). split; [exact C2|]. split; [exact V2|].
      intros TH. rewrite outflow_cons. cbn [outflow]. destruct (N.eqb_spec self ctl_addr) as [E1|N1].
      * destruct (EX E1) as (i & ->). cbn. specialize (B2 TH). cbn [outflow] in B2. rewrite E1, N.eqb_refl in B2. exact B2.
      * specialize (B2 TH). cbn [outflow] in B2. destruct (N.eqb_spec self ctl_addr) as [E2|_]; [destruct (N1 E2)|]. exact B2.
Qed.

(** * Executions are counted *)

Definition marked (w : world) (id : N) : N :=
  match oget (ct_proposals (w_ctl w)) id with Some p => if is_some (pi_executed_at p) then 1 else 0 | None => 0 end.
Definition counted (w : world) : Prop := forall id, executions A w id = marked w id.

Definition is_exec (m : cosmos_msg) (id : N) : bool :=
  match m with WasmExecute to (ToController (CExecuteProposal i)) _ => (to =? ctl_addr) && (i =? id) | _ => false end.

Lemma quiet_counted w w1 : quiet w w1 -> counted w -> counted w1.
Proof. intros (Q1 & _ & _ & Q4 & _) H id. specialize (H id). unfold executions, marked in *. rewrite Q1, Q4. exact H. Qed.

Lemma start_executions (w : world) s m x id : executions A (set_ext (note w s m) x) id = (if is_exec m id then 1 else 0) + executions A w id.
Proof.
  unfold executions. cbn [set_ext note w_log filter snd]. change (match m with WasmExecute to (ToController (CExecuteProposal i)) _ => (to =? ctl_addr) && (i =? id) | _ => false end) with (is_exec m id).
  destruct (is_exec m id); cbn [length]; lia.
Qed.

Lemma stepped_executions w w1 l id : stepped w w1 l -> executions A w1 id = executions A w id.
Proof.
  intros (_ & _ & _ & _ & E). unfold executions. rewrite E, filter_app, app_length. clear E.
  match goal with |- N.of_nat (?a + _) = _ => assert (E : a = O) end; [|rewrite E; reflexivity].
  induction l as [|gm l IH]; [reflexivity|]. cbn [map filter snd gov_msg_of]. exact IH.
Qed.

Lemma turn_counted e w w0 sender m w1 subs1 :
  wired w -> w_ctl w0 = w_ctl w -> w_gov w0 = w_gov w -> counted w -> size w1 < M64 -> size w0 = size w + 1 ->
  (forall i, executions A w0 i = (match m with CExecuteProposal j => if j =? i then 1 else 0 | _ => 0 end) + executions A w i) ->
  turn w0 e sender m w1 subs1 -> counted w1.
Proof.
  intros HW EC EG HC HS HS0 HE HT.
  pose proof (wi_count _ HW) as HCt. 
  assert (SAME : forall l, stepped w0 w1 l -> ct_proposals (w_ctl w1) = ct_proposals (w_ctl w0) ->
    match m with CExecuteProposal _ => False | _ => True end -> counted w1).
  { intros l S E HM i. rewrite (stepped_executions _ _ _ _ S), HE. unfold marked. rewrite E, EC. specialize (HC i). unfold marked in HC.
    rewrite <- HC. destruct m; try contradiction; lia. }
  destruct HT.
  - pose proof (stepped_size _ _ _ H5) as SS. cbn in SS. rewrite EG in H6. apply create_facts in H6; [|lia]. destruct H6 as (E1 & _ & _).
    assert (FR : oget (ct_proposals (w_ctl w)) id = None).
    { destruct (oget (ct_proposals (w_ctl w)) id) eqn:E; [|reflexivity]. apply (wi_ids _ HW) in E. lia. }
    intros i. rewrite (stepped_executions _ _ _ _ H5), HE. unfold marked. rewrite H8, EC, oget_oset.
    assert (EZ : (match m with CExecuteProposal j => if j =? i then 1 else 0 | _ => 0 end) = 0) by (destruct m; try reflexivity; contradiction).
    rewrite EZ, HC. unfold marked. destruct (N.eqb_spec id i) as [<-|NE]; [rewrite FR, H0; reflexivity|reflexivity].
  - intros i. rewrite (stepped_executions _ _ _ _ H2), HE, HC. unfold marked. rewrite H7, EC. destruct (N.eqb_spec id i) as [<-|NE]; [|reflexivity].
    rewrite EC in H. rewrite H, H6. reflexivity.
  - eapply SAME; eauto.
  - intros i. rewrite (stepped_executions _ _ _ _ H1), HE, HC. unfold marked. rewrite H6, EC, oget_oset. rewrite EC in H.
    destruct (N.eqb_spec id i) as [<-|NE]; [|reflexivity]. rewrite H, H0. reflexivity.
  - eapply SAME; eauto.
  - eapply SAME; eauto.
  - eapply SAME; eauto. destruct H as [->|(ch & -> & _)]; exact I.
Qed.

Lemma layer1b n : forall w e j w' d, go n w e j = Ok (w', d) -> wired w ->
  match j with JSubs self subs => self = ctl_addr -> fine subs | JMsg _ _ => True end ->
  size w' < M64 -> counted w -> counted w'.
Proof.
  induction n as [n IH] using lt_wf_ind. intros w e j w' d H HW HF HS CT.
  destruct j as [s m|self [|x rest]].
  - destruct n as [|n]; [discriminate|].
    apply go_msg in H. destruct H as [(to & wm & coins & x & w1 & subs & d' & -> & _ & Hh & Hg)|(NE & Ho)].
    + destruct (start_wired w s (WasmExecute to wm coins) x HW) as (W0 & _ & S0).
      assert (CT0 : is_exec (WasmExecute to wm coins) = (fun _ => false) -> counted (set_ext (note w s (WasmExecute to wm coins)) x)).
      { intros E i. rewrite start_executions, E. apply CT. }
      assert (EX0 : forall i, executions A (set_ext (note w s (WasmExecute to wm coins)) x) i = (if is_exec (WasmExecute to wm coins) i then 1 else 0) + executions A w i)
        by (intros i; apply start_executions).
      assert (EC : w_ctl (set_ext (note w s (WasmExecute to wm coins)) x) = w_ctl w) by reflexivity.
      assert (EG : w_gov (set_ext (note w s (WasmExecute to wm coins)) x) = w_gov w) by reflexivity.
      set (w0 := set_ext (note w s (WasmExecute to wm coins)) x) in *.
      pose proof (go_size _ _ _ _ _ _ Hg) as GS.
      assert (NX : to <> ctl_addr \/ (forall cm, wm <> ToController cm) -> counted w0).
      { intros NX i. rewrite EX0. cbn [is_exec]. 
        assert (E : (match wm with ToController (CExecuteProposal i0) => (to =? ctl_addr) && (i0 =? i) | _ => false end) = false).
        { destruct NX as [NX|NX]; destruct wm; try reflexivity.
          - apply N.eqb_neq in NX. rewrite NX. destruct m; reflexivity.
          - destruct (NX m eq_refl). }
        rewrite E. apply CT. }
      apply handle_cases in Hh. destruct Hh as [(-> & cm & s' & -> & He & -> & _)|[(-> & gm & g & -> & He & -> & ->)|[(-> & mm & s' & outs & -> & He & -> & -> & _)|(N1 & N2 & N3 & Q)]]].
      * destruct (ctl_turn _ _ _ _ _ _ _ _ _ _ W0 He Hg) as (n' & w1 & subs1 & L & T & d2 & G).
        pose proof (go_size _ _ _ _ _ _ G) as GS1.
        assert (CT1 : counted w1).
        { eapply (turn_counted e w w0); try eassumption; [lia|]. intros i. rewrite EX0. cbn [is_exec]. rewrite N.eqb_refl. destruct cm; reflexivity. }
        apply turn_wired in T; [|assumption|lia]. destruct T as (W1 & K1 & F1).
        exact (IH n' ltac:(lia) _ _ _ _ _ G W1 (fun _ => F1) HS CT1).
      * apply go_nil in Hg. destruct Hg as [-> _]. specialize (NX (or_introl gov_not_ctl)). exact NX.
      * destruct (member_wired w0 s' W0) as (W1 & K1). specialize (NX (or_introl member_not_ctl)).
        exact (IH n ltac:(lia) _ _ _ _ _ Hg W1 (fun E => False_ind _ (member_not_ctl E)) HS NX).
      * destruct (quiet_wired _ _ Q W0) as (W1 & K1). specialize (NX (or_introl N1)).
        exact (IH n ltac:(lia) _ _ _ _ _ Hg W1 (fun E => False_ind _ (N1 E)) HS (quiet_counted _ _ Q NX)).
    + apply other_quiet in Ho. apply (quiet_counted _ _ Ho). intros i. change (note w s m) with (set_ext (note w s m) (w_ext w)).
      rewrite start_executions. assert (E : is_exec m i = false) by (destruct m; try reflexivity; destruct (NE _ _ _ eq_refl)). rewrite E. apply CT.
  - apply go_nil in H. destruct H as [-> _]. exact CT.
  - apply go_cons in H. destruct H as (n' & -> & H).
    assert (HR : forall wa id r wb more wc dc wd dd, sm_reply x = ReplySuccess id \/ sm_reply x = ReplyAlways id ->
      wired wa -> counted wa -> on_reply wa e self id r = Ok (wb, more) -> go n' wb e (JSubs self more) = Ok (wc, dc) ->
      go n' wc e (JSubs self rest) = Ok (wd, dd) -> size wd < M64 -> counted wd).
    { intros wa id r wb more wc dc wd dd HI Wa Ka Hr Hg1 Hg2 Sd.
      pose proof (go_size _ _ _ _ _ _ Hg2) as S2.
      assert (Wb : wired wb /\ counted wb /\ (self = ctl_addr -> fine more)).
      { apply reply_cases in Hr. destruct Hr as [(-> & s' & Hr & ->)|(N & Q)].
        - assert (id = 3) as ->. { specialize (HF eq_refl). inversion HF; subst. destruct HI as [E|E], H2 as [F|F]; congruence. }
          apply reply_3 in Hr. destruct Hr as [-> ->]. rewrite set_ctl_same. split; [exact Wa|]. split; [exact Ka|]. intros _; constructor.
        - split; [apply (quiet_wired _ _ Q Wa)|]. split; [exact (quiet_counted _ _ Q Ka)|]. intros E. destruct (N E). }
      destruct Wb as (Wb & Kb & Fb).
      pose proof (IH n' ltac:(lia) _ _ _ _ _ Hg1 Wb Fb ltac:(lia) Kb) as Kc.
      destruct (layer1 _ _ _ _ _ _ Hg1 Wb Fb ltac:(lia)) as (Wc & _).
      exact (IH n' ltac:(lia) _ _ _ _ _ Hg2 Wc (fun E => Forall_inv_tail (HF E)) Sd Kc). }
    destruct H as [(w1 & d1 & H1 & [(_ & H2)|(id & w2 & more & w3 & d3 & E & H2 & H3 & H4)])|(id & w2 & more & w3 & d3 & _ & E & H2 & H3 & H4)].
    + pose proof (go_size _ _ _ _ _ _ H2).
      pose proof (IH n' ltac:(lia) _ _ _ _ _ H1 HW I ltac:(lia) CT) as K1. destruct (layer1 _ _ _ _ _ _ H1 HW I ltac:(lia)) as (W1 & _).
      exact (IH n' ltac:(lia) _ _ _ _ _ H2 W1 (fun E => Forall_inv_tail (HF E)) HS K1).
    + assert (size w1 < M64).
      { pose proof (go_size _ _ _ _ _ _ H3). pose proof (go_size _ _ _ _ _ _ H4). apply reply_log in H2. unfold size in *. rewrite H2 in *. lia. }
      pose proof (IH n' ltac:(lia) _ _ _ _ _ H1 HW I ltac:(lia) CT) as K1. destruct (layer1 _ _ _ _ _ _ H1 HW I ltac:(lia)) as (W1 & _).
      eapply HR; eassumption.
    + eapply HR; try eassumption. right; exact E.
Qed.

End W.
