(** What follows for every DAO, from its creation on. *)
From Verif Require Import Base OMap OMapLemmas Assets PollModel PollSpec FundsModel MemberModel MemberSpec MemberProofs MemberFacts Msgs
  ControllerModel ControllerSpec ControllerProofs TreasuryModel EnterpriseModel OutpostsModel WorldModel WorldSpec WorldProofs WorldRun
  LiveSpec PurseSpec OrderSpec BallotSpec RecountSpec RecountFacts AccessSpec AccessProofs.

Lemma new_parts X (Out : outside X) A w0 : new_dao A w0 -> in_place A w0 -> parts Out A w0 w0.
Proof.
  intros HN [I1 I2 I3 I4 I5]. pose proof (new_wired A w0 HN) as HW. constructor; try assumption; try apply same_kind_refl.
  - exact (wi_en _ _ HW).
  - exact (wi_of _ _ HW).
  - rewrite (nd_governance _ _ HN). reflexivity.
  - exact (nd_member_of _ _ HN).
Qed.

Lemma all_entitled X (Out : outside X) A w0 ts w s m l :
  new_dao A w0 -> in_place A w0 -> w = world_run Out A w0 ts -> sent_after (w_log w) s m l -> entitled Out A w0 l s m.
Proof.
  intros HN HI -> H. revert s m l H. apply (so_log Out A w0). apply (run_sound Out A (nd_addrs _ _ HN)).
  constructor; rewrite ?(nd_log _ _ HN); try reflexivity; [exact (new_parts X Out A w0 HN HI)|exact (ip_treasury _ _ HI)|].
  intros s m l [later E]. destruct later; discriminate.
Qed.

Lemma unsigned_kept_out X (Out : outside X) A w0 ts w u s m :
  new_dao A w0 -> in_place A w0 -> w = world_run Out A w0 ts -> has_text w0 -> text_kept A w -> never_signs Out u ->
  In (s, m) (w_log w) -> ~ kept_from A u s m.
Proof.
  intros HN HI -> HT HK HU. revert HK s m.
  assert (Q : outside_text Out A w0 u (world_run Out A w0 ts)).
  { apply (run_text Out A (nd_addrs _ _ HN) w0 u HU). split; [exact (new_parts X Out A w0 HN HI)|]. intros _. split; [exact HT|].
    rewrite (nd_log _ _ HN). intros s m []. }
  intros HK s m. exact (proj2 (proj2 Q HK) s m).
Qed.

Lemma reweigh_bounded X (Out : outside X) A w0 l u s m n : (forall q, w_member w0 <> MMultisig q) ->
  entitled Out A w0 l s m -> ~ kept_from A u s m -> reweigh (a_membership A) u (s, m) n <= n.
Proof.
  intros NM HE HK. unfold reweigh. cbn [fst snd]. destruct m as [| to wm coins | | | | |]; try lia. destruct wm; try lia. destruct (N.eqb_spec to (a_membership A)) as [->|_]; [|lia].
  unfold entitled in HE. destruct HE as (_ & _ & HE & _). specialize (HE eq_refl). destruct HE as (mm & E & HE). injection E as <-.
  cbn [kept_from] in HK. destruct m as [[k [v|es|cl|]|c]|[v|c]|[t [v|v r|]|ts|v|p|h|h]|[es|es|h|h]]; cbn [weighs_after may_tell_members] in *; try lia;
    try (match goal with |- context [?a =? ?b] => destruct (N.eqb_spec a b) end; try lia; exfalso; apply HK; auto; fail).
  all: try (destruct c; try lia; destruct (s =? u); lia).
  all: try (destruct v as [v|]; match goal with |- context [?a =? ?b] => destruct (N.eqb_spec a b) end; try lia; exfalso; apply HK; auto; fail).
  all: try (destruct (s =? u); lia).
  all: destruct HE as (_ & q & E); destruct (NM q E).
Qed.

Lemma hooks_weights l : forall m m', save_hooks m l = Ok m' -> m_weights m' = m_weights m.
Proof.
  intros m m' H. unfold save_hooks in H. refine (fold_res_inv (fun x => m_weights x = m_weights m) _ _ _ m m' eq_refl H).
  intros a h b _ E Q. allb. exact E.
Qed.
Lemma points_weights a b m : m_weights (save_checkpoints m a b) = m_weights m.
Proof.
  unfold save_checkpoints. reflexivity.
Qed.

Lemma unsigned_weightless X (Out : outside X) A w0 ts w u :
  new_dao A w0 -> in_place A w0 -> w = world_run Out A w0 ts -> has_text w0 -> text_kept A w -> never_signs Out u ->
  (forall q, w_member w0 <> MMultisig q) -> weight_of (w_member w) u = 0.
Proof.
  intros HN HI E HT HK HU NM. pose proof (member_weight_public X Out A w0 ts w u HN E) as (-> & _).
  assert (Z : weight_of (w_member w0) u = 0).
  { destruct (nd_membership _ _ HN) as (e & i & H). destruct (w_member w0) as [q|q|q|q]; [..|destruct (NM q eq_refl)]; unfold weight_of; cbn [members_of];
    destruct i; cbn [member_instantiate] in H; allb; unfold token_instantiate, denom_instantiate, nft_instantiate in *; allb; cbn [st_members ns_members];
    repeat match goal with H : save_hooks _ _ = Ok _ |- _ => apply hooks_weights in H; rewrite H; clear H end; cbn [save_total_weight m_weights]; rewrite ?points_weights;
    unfold members_new in *; allb; reflexivity. }
  assert (S : forall l, (exists later, w_log w = later ++ l) -> recount (a_membership A) u (weight_of (w_member w0) u) l = 0).
  { induction l as [|[s m] l IH]; intros (later & EL); [exact Z|]. unfold recount. cbn [fold_right].
    assert (IH' : fold_right (reweigh (a_membership A) u) (weight_of (w_member w0) u) l = 0) by (apply IH; exists (later ++ [(s, m)]); rewrite <- app_assoc; exact EL).
    rewrite IH'. apply N.le_0_r. apply (reweigh_bounded X Out A w0 l); [exact NM| |].
    - apply (all_entitled X Out A w0 ts w); auto. exists later. exact EL.
    - apply (unsigned_kept_out X Out A w0 ts w); auto. rewrite EL. apply in_or_app. right. left. reflexivity. }
  apply S. exists []. reflexivity.
Qed.

(** Somebody whose ballot is recorded had weight when casting it. *)
Lemma voters_have_weight X (Out : outside X) A w0 ts w u id o coins l :
  new_dao A w0 -> in_place A w0 -> w = world_run Out A w0 ts ->
  (sent_after (w_log w) u (WasmExecute (a_controller A) (ToController (CCastVote id o)) coins) l ->
    recount (a_membership A) u (weight_of (w_member w0) u) l <> 0) /\
  (sent_after (w_log w) u (WasmExecute (a_controller A) (ToController (CCastCouncilVote id o)) coins) l ->
    recount (a_council A) u (weight_of (w_council w0) u) l <> 0).
Proof.
  intros HN HI E. split; intros H; apply (all_entitled X Out A w0 ts w _ _ _ HN HI E) in H; destruct H as (H & _); destruct (H eq_refl) as (cm & Q & R); injection Q as <-; exact R.
Qed.
