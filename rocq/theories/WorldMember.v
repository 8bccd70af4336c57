(** Further lemmas about the membership contracts, for the whole DAO. *)
From Verif Require Import Base OMap OMapLemmas Assets PollModel FundsModel MemberModel MemberSpec MemberProofs MemberFacts.

(** Messages other than those that change the hooks or replace the member list. *)
Definition tame_member (m : member_msg) : bool :=
  match m with
  | TokenMsg (TCommon (SAddHook _)) | TokenMsg (TCommon (SRemoveHook _)) => false
  | DenomMsg (DCommon (SAddHook _)) | DenomMsg (DCommon (SRemoveHook _)) => false
  | NftMsg (NAddHook _) | NftMsg (NRemoveHook _) => false
  | MultisigMsg (MSetMembers _) | MultisigMsg (MAddHook _) | MultisigMsg (MRemoveHook _) => false
  | _ => true
  end.

Inductive deed (m m' : members) (outs : list member_out) : Prop :=
| De_none : m_weights m' = m_weights m -> total_weight m' = total_weight m ->
    (forall h ch, ~ In (OReport h ch) outs) -> deed m m' outs
| De_change ch : outs = report m' ch -> total_weight m' < M128 -> Forall (fun c => wc_new c < M128) ch -> deed m m' outs.

Definition small (st : member_state) : Prop := MemberProofs.inv st /\ total_weight (members_of st) < M128.

Ltac none := apply De_none; [reflexivity|reflexivity|intros ? ? Hin; cbn in Hin; intuition congruence].

Lemma add_stakes_small o l : forall m ch sum m' ch' sum',
  Forall (fun c => wc_new c < M128) ch ->
  fold_res (add_stakes_one o) (m, ch, sum) l = Ok (m', ch', sum') -> Forall (fun c => wc_new c < M128) ch'.
Proof.
  induction l as [|[user a] t IH]; intros m ch sum m' ch' sum' HF H; cbn [fold_res] in H; [inversion H; subst; assumption|].
  apply bind_ok in H. destruct H as [[[m1 ch1] sum1] [H1 H]]. apply IH in H; [exact H|].
  unfold add_stakes_one in H1. destruct (a =? 0); [inversion H1; subst; assumption|].
  allb. apply Forall_app. split; [assumption|]. repeat constructor. cbn. assumption.
Qed.

Lemma update_small l : forall m total ch m' total' ch',
  Forall (fun c => wc_new c < M128) ch -> total < M128 ->
  fold_res update_members_one (m, total, ch) l = Ok (m', total', ch') -> Forall (fun c => wc_new c < M128) ch' /\ total' < M128.
Proof.
  induction l as [|[user a] t IH]; intros m total ch m' total' ch' HF HT H; cbn [fold_res] in H; [inversion H; subst; auto|].
  apply bind_ok in H. destruct H as [[[m1 t1] ch1] [H1 H]]. unfold update_members_one in H1. allb. apply IH in H; [exact H| |assumption].
  apply Forall_app. split; [assumption|]. repeat constructor. cbn. lia.
Qed.

Lemma set_small old l : forall m total ch m' total' ch',
  Forall (fun c => wc_new c < M128) ch -> total < M128 ->
  fold_res (set_members_one old) (m, total, ch) l = Ok (m', total', ch') -> Forall (fun c => wc_new c < M128) ch' /\ total' < M128.
Proof.
  induction l as [|[user a] t IH]; intros m total ch m' total' ch' HF HT H; cbn [fold_res] in H; [inversion H; subst; auto|].
  apply bind_ok in H. destruct H as [[[m1 t1] ch1] [H1 H]]. unfold set_members_one in H1. allb. apply IH in H; [exact H| |assumption].
  apply Forall_app. split; [assumption|]. repeat constructor. cbn. lia.
Qed.

Lemma add_stake_deed s e u a s' outs : add_stake s e u a = Ok (s', outs) -> deed (st_members s) (st_members s') outs.
Proof.
  intros H. apply add_stake_ok in H. destruct H as [-> [-> [H1 H2]]].
  eapply De_change; [reflexivity|cbn [st_with_members st_members]; rewrite total_save; assumption|].
  repeat constructor. cbn. assumption.
Qed.

Lemma stake_deed o s e sender m s' outs : sum_ok (st_members s) -> total_weight (st_members s) < M128 ->
  stake_execute o s e sender m = Ok (s', outs) ->
  deed (st_members s) (st_members s') outs /\
  match m with
  | SAddHook _ | SRemoveHook _ => mo_controller o = Ok sender
  | _ => m_hooks (st_members s') = m_hooks (st_members s)
  end.
Proof.
  intros HS HT H. destruct m; cbn [stake_execute] in H.
  - apply unstake_ok in H. destruct H as [r [_ [-> [-> [H1 [H2 _]]]]]]. split; [|reflexivity].
    pose proof (weight_le_total _ sender HS).
    eapply De_change; [reflexivity|cbn [st_with_members st_with_claims st_members]; rewrite total_save; lia|].
    repeat constructor. cbn. unfold member_weight in *. lia.
  - unfold claim_stake in H. allb. split; [|reflexivity]. none.
  - allb. unfold update_period in *. allb. destruct p; (split; [none|reflexivity]).
  - allb. unfold add_hook in *. allb. split; [none|]. assumption.
  - allb. unfold remove_hook in *. allb. split; [none|]. assumption.
Qed.

Lemma accepts_deed st c st' outs :
  small st -> accepts st c st' outs ->
  deed (members_of st) (members_of st') outs /\
  (if tame_member (mc_msg c) then m_hooks (members_of st') = m_hooks (members_of st)
   else mo_controller (mc_oracle c) = Ok (mc_sender c)).
Proof.
  unfold accepts, small. intros ((HS & Hk) & HT) H. destruct c as [o e sender coins msg]. cbn [mc_oracle mc_env mc_sender mc_coins mc_msg] in *.
  destruct st as [s|s|s|m], msg as [x|x|x|x]; cbn [member_execute] in H; try discriminate;
    apply bind_ok in H; destruct H as [[s1 o1] [H1 H]]; inversion H; subst; clear H; cbn [members_of keys_ok tame_member] in *.
  - destruct x as [amount h|x]; cbn [token_execute] in H1.
    2:{ apply stake_deed in H1; [|assumption|assumption]. destruct H1 as [D1 D2]. split; [exact D1|]. destruct x; exact D2. }
    unfold token_receive in H1. apply bind_ok in H1. destruct H1 as [? [_ H]]. destruct h.
    + apply stake_token_ok in H. destruct H as [_ [_ H]]. split; [eapply add_stake_deed; eassumption|].
      apply add_stake_ok in H. destruct H as [-> _]. reflexivity.
    + apply add_stakes_ok in H. destruct H as [m [ch [Hl [-> [-> H]]]]].
      pose proof (add_stakes_small _ _ _ _ _ _ _ _ (Forall_nil _) Hl).
      apply add_stakes_loop in Hl. destruct Hl as [w [more [-> [-> _]]]]. split; [|reflexivity].
      eapply De_change; [reflexivity|cbn [st_with_members st_members]; rewrite total_save; assumption|assumption].
    + allb. apply add_claims_ok in Hb; [|assumption]. destruct Hb as [n [cl [-> _]]]. split; [none|reflexivity].
    + discriminate.
  - destruct x as [user|x]; cbn [denom_execute] in H1.
    2:{ apply stake_deed in H1; [|assumption|assumption]. destruct H1 as [D1 D2]. split; [exact D1|]. destruct x; exact D2. }
    apply stake_denom_ok in H1. destruct H1 as [d [a [_ [_ [_ [_ H]]]]]]. split; [eapply add_stake_deed; eassumption|].
    apply add_stake_ok in H. destruct H as [-> _]. reflexivity.
  - destruct x as [t h|ts|user|p|h|h]; cbn [nft_execute] in H1.
    + apply receive_nft_ok in H1. destruct H1 as [_ H]. pose proof (resolved_fields s o sender) as [F1 [F2 [F3 [F4 F5]]]].
      destruct h as [u|u r|]; [| |contradiction].
      * unfold stake_nft, increment_member_weight, increment_total_weight in H. allb. split; [|cbn; rewrite F1; reflexivity].
        eapply De_change; [reflexivity|cbn [ns_with_members ns_members]; rewrite total_save; assumption|].
        repeat constructor. cbn. assumption.
      * destruct H as [_ [H ->]]. unfold add_nft_claim in H. allb. cbn [ns_with_claims ns_members]. rewrite F1. split; [none|reflexivity].
    + apply unstake_nft_ok in H1. destruct H1 as [r [stk [_ [_ [-> [-> [H1 [H2 _]]]]]]]]. split; [|reflexivity].
      pose proof (weight_le_total _ sender HS).
      eapply De_change; [reflexivity|cbn [ns_with_members ns_with_claims ns_members]; rewrite total_save; lia|].
      repeat constructor. cbn. unfold member_weight in *. lia.
    + apply claim_nft_ok in H1; [|assumption]. destruct H1 as [_ [c [_ [-> ->]]]]. split; [|reflexivity].
      apply De_none; [reflexivity|reflexivity|]. intros h ch Hin. apply in_map_iff in Hin. destruct Hin as (y & E & _). discriminate.
    + allb. unfold nft_update_period in *. allb. destruct p; (split; [none|reflexivity]).
    + allb. unfold add_hook in *. allb. split; [none|]. assumption.
    + allb. unfold remove_hook in *. allb. split; [none|]. assumption.
  - destruct x as [l|l|h|h]; cbn [multisig_execute] in H1.
    + pose proof H1 as H2. unfold update_members in H1. allb. apply update_small in Hb1; [|constructor|assumption]. destruct Hb1 as [B1 B2].
      split; [eapply De_change; [reflexivity|rewrite total_save; assumption|assumption]|].
      apply update_members_ok in H2. destruct H2 as [_ [_ [w [t [ch [E _]]]]]]. rewrite E. reflexivity.
    + unfold set_members in H1. allb.
      destruct (set_small _ _ _ _ _ _ _ _ (Forall_nil _) (eq_refl : 0 < M128) Hb1) as [B1 B2]. split.
      * eapply De_change; [reflexivity|rewrite total_save; assumption|assumption].
      * assumption.
    + allb. unfold add_hook in *. allb. split; [none|]. assumption.
    + allb. unfold remove_hook in *. allb. split; [none|]. assumption.
Qed.

Lemma accepts_small st c st' outs : small st -> accepts st c st' outs -> small st'.
Proof.
  intros HS H. destruct (accepts_deed _ _ _ _ HS H) as [D _]. destruct HS as [HI HT]. split; [eapply inv_accepts; eassumption|].
  destruct D as [_ -> _|ch _ D _]; assumption.
Qed.

Lemma hooks_total l : forall m m', save_hooks m l = Ok m' -> total_weight m' = total_weight m.
Proof.
  induction l as [|h t IH]; intros m m' H; unfold save_hooks in *; cbn [fold_res] in H; [inversion H; reflexivity|].
  apply bind_ok in H. destruct H as (m1 & H1 & H). apply IH in H. rewrite H. allb. reflexivity.
Qed.

Lemma init_small e i st : member_instantiate e i = Ok st -> small st.
Proof.
  intros H. split; [eapply (proj1 (init_inv _ _ _ H))|].
  destruct i; cbn in H; apply bind_ok in H; destruct H as [s [H1 H]]; inversion H; subst; clear H; cbn [members_of].
  - unfold token_instantiate in H1. allb. match goal with H : save_hooks _ _ = Ok _ |- _ => apply hooks_total in H end.
    cbn [st_members]. match goal with H : total_weight _ = _ |- _ => rewrite H end. rewrite total_save. reflexivity.
  - unfold denom_instantiate in H1. allb. match goal with H : save_hooks _ _ = Ok _ |- _ => apply hooks_total in H end.
    cbn [st_members]. match goal with H : total_weight _ = _ |- _ => rewrite H end. rewrite total_save. reflexivity.
  - unfold nft_instantiate in H1. allb. match goal with H : save_hooks _ _ = Ok _ |- _ => apply hooks_total in H end.
    cbn [ns_members]. match goal with H : total_weight _ = _ |- _ => rewrite H end. rewrite total_save. reflexivity.
  - unfold multisig_instantiate in H1. apply bind_ok in H1. destruct H1 as (m0 & _ & H1). apply bind_ok in H1. destruct H1 as (m1 & Hm & H1).
    apply hooks_total in H1. rewrite H1. clear H1. destruct initial as [l|]; [|inversion Hm; rewrite total_save; reflexivity].
    apply bind_ok in Hm. destruct Hm as (l' & _ & Hm). apply bind_ok in Hm. destruct Hm as ([m2 t] & Hf & Hm). inversion Hm; subst.
    rewrite total_save. revert Hf. generalize (save_checkpoints m0 by_height by_seconds).
    assert (G : forall m a, a < M128 -> fold_res (fun mt uw =>
                let '(m, total) := mt in
                t1 <- uint_sub total (member_weight m (fst uw)) ;;
                t2 <- uint_add t1 (snd uw) ;;
                Ok (set_member_weight m (fst uw) (snd uw), t2)) (m, a) l' = Ok (m2, t) -> t < M128).
    { clear. induction l' as [|uw l' IH]; intros m a Ha H; cbn [fold_res] in H; [inversion H; subst; assumption|].
      apply bind_ok in H. destruct H as ([m1 a1] & H1 & H). apply IH in H; [exact H|]. allb. assumption. }
    intros m Hf. eapply G; [|exact Hf]. reflexivity.
Qed.
