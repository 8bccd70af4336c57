(** The migration of an old DAO over whole histories (C44) and the weights it reports meanwhile (C63). *)
From Verif Require Import Base OMap OMapLemmas Assets FundsModel MemberModel MemberProofs Msgs
  TreasuryModel TreasurySpec TreasuryProofs MigrationProofs TreasuryFacts.
Local Opaque M32.


(** A call either is a migration step or leaves the old DAO's data alone. *)
Definition carries_nothing (m : sub_msg) : Prop :=
  stakes_in m = [] /\ claims_in m = [] /\ nft_stake_in m = [] /\ nft_claim_in m = [].

Lemma call_cases t c t' ms : treasury_step t c = (t', ms) ->
  (tr_old t' = tr_old t /\ (not_custom c -> Forall carries_nothing ms)) \/
  exists limit, tc_msg c = TrMigrationStep limit /\ migration_step (tc_gas c) (tr_old t) limit = Ok (tr_old t', ms).
Proof.
  unfold treasury_step. destruct (treasury_execute (tc_gas c) t (tc_sender c) (tc_msg c)) as [[t1 m1]|e] eqn:E; intros H; inversion H; subst.
  2:{ left. split; [reflexivity|constructor]. }
  clear H. unfold not_custom. destruct (tc_msg c).
  - apply set_admin_exact in E. destruct E as (_ & _ & -> & ->). left. split; [reflexivity|constructor].
  - apply update_assets_ok in E. destruct E as (_ & -> & _ & _ & _ & E). left. split; [exact E|constructor].
  - apply update_nfts_ok in E. destruct E as (_ & -> & _ & _ & _ & _ & _ & E). left. split; [exact E|constructor].
  - apply spend_exact in E. destruct E as (_ & -> & E). left. split; [reflexivity|]. intros _.
    clear -E. induction E as [|a m l l' H _ IH]; constructor; [|assumption]. inversion H; subst; repeat split.
  - apply distribute_exact in E. destruct E as (_ & -> & _ & _ & ->). left. split; [reflexivity|]. intros _.
    apply Forall_app. split.
    + clear. induction funds as [|[a n] l IH]; [constructor|]. unfold cw20_part in *. cbn [flat_map fst snd].
      apply Forall_app. split; [|exact IH]. destruct a; repeat constructor.
    + destruct (native_part funds); repeat constructor.
  - apply execute_exact in E. destruct E as (_ & -> & _). left. split; [reflexivity|]. contradiction.
  - right. apply migrate_exact in E. destruct E as (E & _). eauto.
Qed.

Lemma carries_flat {A} (f : sub_msg -> list A) ms : (forall m, carries_nothing m -> f m = []) -> Forall carries_nothing ms -> flat_map f ms = [].
Proof. intros Hf. induction 1 as [|m l Hm _ IH]; [reflexivity|]. cbn [flat_map]. rewrite (Hf m Hm). exact IH. Qed.

(** ** Token DAO *)

Lemma zero_sum {A} (f : A -> N) l : lsum f l = 0 -> filter (fun x => negb (f x =? 0)) l = [].
Proof.
  induction l as [|a t IH]; intros H; [reflexivity|]. rewrite lsum_cons in H. cbn [filter].
  replace (f a) with 0 by lia. cbn. apply IH. lia.
Qed.

Lemma token_messages token membership ms mc :
  let msgs := (if lsum snd ms =? 0 then []
            else [plain (WasmExecute token (ToCw20 (Cw20Send membership (lsum snd ms) (HookMember (HAddStakes ms)))) [])]) ++
           (if lsum claim_amount mc =? 0 then []
            else [plain (WasmExecute token (ToCw20 (Cw20Send membership (lsum claim_amount mc) (HookMember (HAddClaims mc)))) [])]) in
  filter positive_stake (flat_map stakes_in msgs) = filter positive_stake ms /\
  filter positive_claim (flat_map claims_in msgs) = filter positive_claim mc /\
  flat_map nft_stake_in msgs = [] /\ flat_map nft_claim_in msgs = [].
Proof.
  cbv zeta. rewrite !flat_map_app.
  destruct (lsum snd ms =? 0) eqn:E1; destruct (lsum claim_amount mc =? 0) eqn:E2;
    cbn [flat_map stakes_in claims_in nft_stake_in nft_claim_in sm_msg plain app]; rewrite ?app_nil_r;
    repeat split; try reflexivity; symmetry.
  - apply N.eqb_eq in E1. exact (zero_sum (snd : N * N -> N) ms E1).
  - apply N.eqb_eq in E2. exact (zero_sum claim_amount mc E2).
  - apply N.eqb_eq in E1. exact (zero_sum (snd : N * N -> N) ms E1).
  - apply N.eqb_eq in E2. exact (zero_sum claim_amount mc E2).
Qed.

Lemma token_history cs : forall t t' msgs,
  og_type (tr_old t) = Some DaoToken -> Forall typed_call cs -> Forall not_custom cs -> treasury_run t cs = (t', msgs) ->
  filter positive_stake (flat_map stakes_in msgs) ++ filter positive_stake (elems (og_stakes (tr_old t'))) =
    filter positive_stake (elems (og_stakes (tr_old t))) /\
  filter positive_claim (flat_map claims_in msgs) ++ filter positive_claim (token_claims (elems (og_claims (tr_old t')))) =
    filter positive_claim (token_claims (elems (og_claims (tr_old t)))) /\
  flat_map nft_stake_in msgs = [] /\ flat_map nft_claim_in msgs = [] /\
  og_nfts (tr_old t') = og_nfts (tr_old t) /\
  nft_claims (elems (og_claims (tr_old t'))) = nft_claims (elems (og_claims (tr_old t))) /\ same_rest (tr_old t) (tr_old t').
Proof.
  induction cs as [|c cs IH]; intros t t' msgs Ht Hty Hcu H; cbn [treasury_run] in H.
  - inversion H; subst. cbn [flat_map filter app]. repeat split; reflexivity.
  - inversion Hty; subst. inversion Hcu; subst.
    destruct (treasury_step t c) as [t1 m1] eqn:E1. destruct (treasury_run t1 cs) as [t2 m2] eqn:E2. inversion H; subst. clear H.
    rewrite !flat_map_app, !filter_app.
    apply call_cases in E1. destruct E1 as [[Ho Hn]|(limit & Hm & Hs)].
    + specialize (Hn ltac:(assumption)). apply IH in E2; [|congruence|assumption|assumption]. rewrite Ho in E2.
      rewrite (carries_flat stakes_in m1), (carries_flat claims_in m1), (carries_flat nft_stake_in m1), (carries_flat nft_claim_in m1);
        try assumption; try (intros m (? & ? & ? & ?); assumption).
    + match goal with Hc : typed_call c |- _ => unfold typed_call in Hc; rewrite Hm in Hc; rename Hc into Hl end.
      apply token_migration_step in Hs; [|assumption|assumption].
      destruct Hs as (token & membership & ms & mc & Hc & Hi & S1 & C1 & N1 & Hmsgs & _ & _ & _ & _ & _ & _ & Hnf & R1 & R2 & R3 & R4 & R5 & R6).
      pose proof (token_messages token membership ms mc) as HM. cbv zeta in HM. rewrite <- Hmsgs in HM. destruct HM as (M1 & M2 & M3 & M4).
      apply IH in E2; [|congruence|assumption|assumption].
      destruct E2 as (A1 & A2 & A3 & A4 & A5 & A6 & B1 & B2 & B3 & B4 & B5 & B6).
      rewrite M1, M2, M3, M4, A3, A4. rewrite S1, C1, !filter_app, <- A1, <- A2, !app_assoc.
      unfold same_rest. repeat split; congruence.
Qed.

(** ** NFT DAO *)

Lemma nft_messages collection membership ms mc :
  let msgs := map (fun x : N * (addr * N) =>
                  plain (WasmExecute collection (ToCw721 (Cw721Send membership (snd (snd x)) (NStake (fst (snd x))))) [])) ms ++
           map (fun x : N * N * release_at =>
                  plain (WasmExecute collection (ToCw721 (Cw721Send membership (snd (fst x)) (NAddClaim (fst (fst x)) (snd x)))) [])) mc in
  flat_map nft_stake_in msgs = map snd ms /\ flat_map nft_claim_in msgs = mc /\
  flat_map stakes_in msgs = [] /\ flat_map claims_in msgs = [].
Proof.
  cbv zeta. rewrite !flat_map_app.
  assert (Hz : forall A B C (f : B -> list C) (g : A -> B) l, (forall x, f (g x) = []) -> flat_map f (map g l) = []).
  { intros A B C f g l Hf. induction l as [|x r IH]; [reflexivity|]. cbn [map flat_map]. rewrite Hf. exact IH. }
  rewrite !(Hz _ _ _ stakes_in), !(Hz _ _ _ claims_in) by reflexivity.
  rewrite (Hz _ _ _ nft_claim_in _ ms), (Hz _ _ _ nft_stake_in _ mc) by reflexivity. rewrite app_nil_r. cbn [app].
  repeat split.
  - induction ms as [|[k [u tk]] r IH]; [reflexivity|]. cbn [map flat_map]. rewrite IH. reflexivity.
  - induction mc as [|[[u tk] rel] r IH]; [reflexivity|]. cbn [map flat_map]. rewrite IH. reflexivity.
Qed.


Lemma nft_history cs : forall t t' msgs,
  og_type (tr_old t) = Some DaoNft -> nft_items (tr_old t) < M32 ->
  Forall typed_call cs -> Forall not_custom cs -> treasury_run t cs = (t', msgs) ->
  flat_map nft_stake_in msgs ++ map snd (elems (og_nfts (tr_old t'))) = map snd (elems (og_nfts (tr_old t))) /\
  flat_map nft_claim_in msgs ++ nft_claims (elems (og_claims (tr_old t'))) = nft_claims (elems (og_claims (tr_old t))) /\
  flat_map stakes_in msgs = [] /\ flat_map claims_in msgs = [] /\
  og_stakes (tr_old t') = og_stakes (tr_old t) /\ same_rest (tr_old t) (tr_old t').
Proof.
  induction cs as [|c cs IH]; intros t t' msgs Ht Hsz Hty Hcu H; cbn [treasury_run] in H.
  - inversion H; subst. cbn [flat_map app]. repeat split; reflexivity.
  - inversion Hty; subst. inversion Hcu; subst.
    destruct (treasury_step t c) as [t1 m1] eqn:E1. destruct (treasury_run t1 cs) as [t2 m2] eqn:E2. inversion H; subst. clear H.
    rewrite !flat_map_app.
    apply call_cases in E1. destruct E1 as [[Ho Hn]|(limit & Hm & Hs)].
    + specialize (Hn ltac:(assumption)). apply IH in E2; [|congruence|congruence|assumption|assumption]. rewrite Ho in E2.
      rewrite (carries_flat stakes_in m1), (carries_flat claims_in m1), (carries_flat nft_stake_in m1), (carries_flat nft_claim_in m1);
        try assumption; try (intros m (? & ? & ? & ?); assumption).
    + match goal with Hc : typed_call c |- _ => unfold typed_call in Hc; rewrite Hm in Hc; rename Hc into Hl end.
      apply nft_migration_step in Hs; [|assumption|assumption|assumption].
      destruct Hs as (collection & membership & ms & mc & Hc & Hi & S1 & C1 & _ & Hmsgs & _ & _ & _ & Hst & R1 & R2 & R3 & R4 & R5 & R6).
      pose proof (nft_messages collection membership ms mc) as HM. cbv zeta in HM. rewrite <- Hmsgs in HM. destruct HM as (M1 & M2 & M3 & M4).
      apply IH in E2; [|congruence| |assumption|assumption].
      2:{ unfold nft_items in *. rewrite S1, C1, !app_length in Hsz. lia. }
      destruct E2 as (A1 & A2 & A3 & A4 & A5 & B1 & B2 & B3 & B4 & B5 & B6).
      rewrite M1, M2, M3, M4, A3, A4. rewrite S1, C1, map_app, <- A1, <- A2, !app_assoc.
      unfold same_rest. repeat split; congruence.
Qed.

(** ** Completion *)


Lemma has_unmoved_false o : has_unmoved o = false <-> elems (og_stakes o) = [] /\ elems (og_nfts o) = [] /\ elems (og_claims o) = [].
Proof.
  unfold has_unmoved, is_empty. destruct (elems (og_stakes o)); destruct (elems (og_nfts o)); destruct (elems (og_claims o));
    cbn [negb orb]; intuition (congruence || discriminate).
Qed.

Lemma finished_stays gas o limit : finished o -> migration_step gas o limit = Err EInvalidState.
Proof. intros (Hs & Hu). apply has_unmoved_false in Hu. unfold migration_step. rewrite Hs. cbn [dflt]. rewrite Hu. reflexivity. Qed.

Lemma filter_le {A} (f : A -> bool) l : (length (filter f l) <= length l)%nat.
Proof. induction l as [|a t IH]; cbn; [lia|]. destruct (f a); cbn; lia. Qed.

Lemma claims_loop_sub limit : limit < M32 -> forall gas m acc m' acc', claims_loop gas limit m acc = Ok (m', acc') ->
  (length (elems m') <= length (elems m))%nat /\
  forall u cs c, In (u, cs) (elems m') -> In c cs -> exists cs', In (u, cs') (elems m) /\ In c cs'.
Proof.
  intros Hl. induction gas as [|gas IH]; intros m acc m' acc' H; cbn [claims_loop] in H;
    destruct ((ca_included acc <? limit) && negb match elems m with [] => true | _ => false end); try discriminate;
    try (clean; split; [lia|eauto]).
  apply bind_ok in H. destruct H as ([acc1 reps] & H1 & H). cbn [fst snd] in H. apply IH in H. destruct H as (HL & HS).
  pose proof (include_users_sub _ _ _ _ _ H1) as Hsub.
  apply (include_users_ok limit Hl) in H1. destruct H1 as (j & m1 & Hj & Hk & _).
  set (window := take limit (elems m)) in *.
  assert (Hm : elems m = firstn j window ++ (skipn j window ++ skipn (N.to_nat limit) (elems m))).
  { rewrite app_assoc, firstn_skipn. unfold window, take. symmetry. apply firstn_skipn. }
  pose proof (replace_elems reps (firstn j window) m [] _ Hm Hk) as Hr. cbn [app] in Hr.
  split.
  - rewrite Hr, app_length in HL. rewrite Hm, app_length.
    assert (length reps = length (firstn j window)) by (rewrite <- (map_length fst reps), Hk, map_length; reflexivity).
    pose proof (filter_le keep reps). lia.
  - intros u cs c Hin Hc. destruct (HS u cs c Hin Hc) as (cs1 & Hin1 & Hc1). rewrite Hr in Hin1. apply in_app_or in Hin1.
    destruct Hin1 as [Hin1|Hin1].
    + apply filter_In in Hin1. destruct Hin1 as (Hin1 & _). destruct (Hsub u cs1 c Hin1 Hc1) as (cs2 & Hin2 & Hc2).
      exists cs2. split; [|exact Hc2]. unfold window, take in Hin2. rewrite <- (firstn_skipn (N.to_nat limit)). apply in_or_app. left. exact Hin2.
    + exists cs1. split; [|exact Hc1]. rewrite Hm. apply in_or_app. right. exact Hin1.
Qed.



Lemma take_sum {A} (f : A -> N) n l : lsum f (take n l) <= lsum f l.
Proof. unfold take. rewrite <- (firstn_skipn (N.to_nat n) l) at 2. rewrite lsum_app. lia. Qed.

Lemma token_progress gas g o limit : token_ready gas o -> (gas <= g)%nat -> typed_limit limit -> 0 < step_limit DaoToken limit ->
  exists o' msgs, migration_step g o limit = Ok (o', msgs) /\
    (finished o' \/ token_ready gas o' /\ (token_items o' < token_items o)%nat).
Proof.
  intros (Ht & (token & Hc) & (membership & Hi) & Hto & Hg & Ham & Hnf & Hst) Hgg Hl Hpos.
  pose proof (typed_step DaoToken limit Hl) as Hl32. set (lim := step_limit DaoToken limit) in *.
  assert (Hex : exists o1 ms n, finalize_membership g o membership lim = Ok (o1, ms, n) /\
            (length (elems (og_claims o1)) <= length (elems (og_claims o)))%nat /\ token_only (elems (og_claims o1))).
  { unfold finalize_membership. rewrite Ht, Hc. cbn [ok_or bind]. unfold token_amounts in Ham.
    unfold migrate_stakes. rewrite sum_loop_some.
    2:{ rewrite N.add_0_l. pose proof (take_sum (snd : N * N -> N) lim (elems (og_stakes o))). lia. }
    cbn [bind]. unfold migrate_claims. cbn [og_set_stakes og_claims].
    pose proof (take_count lim (elems (og_stakes o))) as Hlen.
    assert (Hn1 : N.of_nat (length (take lim (elems (og_stakes o)))) mod M32 = N.of_nat (length (take lim (elems (og_stakes o))))) by (apply N.mod_small; lia).
    rewrite Hn1, u32_sub_small by lia.
    destruct (claims_loop_some (lim - N.of_nat (length (take lim (elems (og_stakes o))))) ltac:(lia) g (og_claims o) (mk_acc 0 0 []) Hto ltac:(lia)) as ([m' acc] & Hloop).
    { cbn [ca_total]. lia. }
    rewrite Hloop. cbn [bind fst snd]. do 3 eexists. split; [reflexivity|]. cbn [og_set_claims og_claims].
    apply claims_loop_sub in Hloop; [|lia]. destruct Hloop as (HL & HS). split; [exact HL|].
    intros u cs c Hin Hcc. destruct (HS u cs c Hin Hcc) as (cs' & A & B). eapply Hto; eassumption. }
  destruct Hex as (o1 & ms & n & Hf & HL1 & Hto1).
  assert (Hstep : migration_step g o limit = Ok (og_set_stage o1 (if n <? lim then MigrationCompleted else MigrationInProgress), ms)).
  { unfold migration_step. rewrite Hst. cbn [dflt]. unfold migration_step_safe. rewrite Hi, Ht. cbn [ok_or bind]. cbv zeta.
    change (dflt _ limit) with lim. rewrite Hf. reflexivity. }
  do 2 eexists. split; [exact Hstep|].
  pose proof (token_migration_step _ _ _ _ _ Hl Ht Hstep) as
    (tk & mm & l1 & l2 & _ & _ & S1 & C1 & _ & _ & _ & _ & Hcnt & Hle & Hend & _ & Hn & R1 & R2 & R3 & R4 & R5 & R6).
  cbn [og_set_stage og_stakes og_claims og_nfts og_stage og_type og_contract og_info] in *.
  destruct Hend as [(E1 & E2 & E3 & _)|(E1 & E2)].
  - left. split; [exact E1|]. cbn [og_set_stage og_stakes og_claims og_nfts]. rewrite Hn. auto.
  - right. split.
    + unfold token_ready. cbn [og_set_stage og_stakes og_claims og_nfts og_stage og_type og_contract og_info].
      rewrite R1, R2, R4, Hn, E1. split; [exact Ht|]. split; [eauto|]. split; [eauto|]. split; [exact Hto1|]. split; [lia|].
      split; [|auto]. unfold token_amounts in *. cbn [og_set_stage og_stakes og_claims]. rewrite S1, C1, !lsum_app in Ham. lia.
    + unfold token_items. cbn [og_set_stage og_stakes og_claims]. rewrite S1, C1, !app_length. fold lim in E2. lia.
Qed.


Lemma finished_run cs : forall t, finished (tr_old t) -> Forall (fun c => exists limit, tc_msg c = TrMigrationStep limit) cs ->
  fst (treasury_run t cs) = t.
Proof.
  induction cs as [|c cs IH]; intros t Hfin H; [reflexivity|]. inversion H as [|? ? (limit & Hm) H']; subst. cbn [treasury_run].
  unfold treasury_step. rewrite Hm. cbn [treasury_execute]. rewrite finished_stays by assumption. cbn [bind].
  specialize (IH t Hfin H'). destruct (treasury_run t cs). exact IH.
Qed.

Lemma token_completes gas cs : forall t, token_ready gas (tr_old t) -> Forall (steps_well DaoToken gas) cs ->
  (token_items (tr_old t) < length cs)%nat -> finished (tr_old (fst (treasury_run t cs))).
Proof.
  induction cs as [|c cs IH]; intros t Hr Hf Hlen; [cbn in Hlen; lia|].
  inversion Hf as [|? ? (limit & Hm & Hl & Hp & Hg) Hf']; subst.
  destruct (token_progress gas (tc_gas c) (tr_old t) limit Hr Hg Hl Hp) as (o' & ms & Hs & Hcase).
  cbn [treasury_run]. unfold treasury_step. rewrite Hm. cbn [treasury_execute]. rewrite Hs. cbn [bind].
  set (t1 := tr_set_old t o'). assert (Ho : tr_old t1 = o') by reflexivity.
  destruct (treasury_run t1 cs) as [t2 m2] eqn:E2. cbn [fst]. replace t2 with (fst (treasury_run t1 cs)) by (rewrite E2; reflexivity).
  destruct Hcase as [Hfin|(Hr' & Hlt)].
  - rewrite finished_run; [exact Hfin|exact Hfin|]. eapply Forall_impl; [|exact Hf']. intros x (l & Hx & _). eauto.
  - apply IH; [exact Hr'|exact Hf'|]. rewrite Ho. cbn [length] in Hlen. lia.
Qed.


Lemma count_le u (l : list (N * (addr * N))) : lsum (fun x : N * (addr * N) => if fst (snd x) =? u then 1 else 0) l <= N.of_nat (length l).
Proof. induction l as [|x r IH]; [cbn; lia|]. rewrite lsum_cons. cbn [length]. destruct (fst (snd x) =? u); lia. Qed.

Lemma nft_progress gas g o limit : nft_ready gas o -> (gas <= g)%nat -> typed_limit limit -> 0 < step_limit DaoNft limit ->
  exists o' msgs, migration_step g o limit = Ok (o', msgs) /\
    (finished o' \/ nft_ready gas o' /\ nft_items o' < nft_items o).
Proof.
  intros (Ht & (collection & Hc) & (membership & Hi) & Hsz & Hg & Ham & Hnf & Hst) Hgg Hl Hpos.
  pose proof (typed_step DaoNft limit Hl) as Hl32. set (lim := step_limit DaoNft limit) in *.
  assert (Hex : exists o1 ms n, finalize_membership g o membership lim = Ok (o1, ms, n)).
  { unfold finalize_membership. rewrite Ht, Hc. cbn [ok_or bind]. unfold migrate_nft_stakes.
    destruct (clear_loop_some (take lim (elems (og_nfts o))) (og_nfts o) (og_migrated o)) as (r & Hr).
    { intros u. specialize (Ham u). rewrite take_count. lia. }
    rewrite Hr. cbn [bind]. unfold migrate_nft_claims. cbn [og_set_nfts og_claims].
    match goal with |- context[nft_claims_loop g ?c ?m ?l ?mm ?k ?ms] => destruct (nft_claims_loop_some c m l g mm k ms ltac:(lia)) as (r2 & Hr2) end.
    rewrite Hr2. cbn [bind]. eauto. }
  destruct Hex as (o1 & ms & n & Hf).
  assert (Hstep : migration_step g o limit = Ok (og_set_stage o1 (if n <? lim then MigrationCompleted else MigrationInProgress), ms)).
  { unfold migration_step. rewrite Hst. cbn [dflt]. unfold migration_step_safe. rewrite Hi, Ht. cbn [ok_or bind]. cbv zeta.
    change (dflt _ limit) with lim. rewrite Hf. reflexivity. }
  do 2 eexists. split; [exact Hstep|].
  pose proof (nft_migration_step _ _ _ _ _ Hl Ht Hsz Hstep) as
    (tk & mm & l1 & l2 & _ & _ & S1 & C1 & (j & Hj) & _ & Hcnt & Hend & Hmig & Hn & R1 & R2 & R3 & R4 & R5 & R6).
  cbn [og_set_stage og_stakes og_claims og_nfts og_stage og_type og_contract og_info og_migrated] in *.
  destruct Hend as [(E1 & E2 & E3 & _)|(E1 & E2)].
  - left. split; [exact E1|]. cbn [og_set_stage og_stakes og_claims og_nfts]. rewrite Hn. auto.
  - fold lim in E2. right. assert (Hit : nft_items (og_set_stage o1 (if n <? lim then MigrationCompleted else MigrationInProgress)) < nft_items o).
    { unfold nft_items. cbn [og_set_stage og_nfts og_claims]. rewrite S1, C1, !app_length. lia. }
    split; [|exact Hit].
    unfold nft_ready. split; [cbn; congruence|]. split; [cbn; rewrite R2; eauto|]. split; [cbn; rewrite R4; eauto|].
    split; [lia|]. cbn [og_set_stage og_stakes og_claims og_nfts og_stage og_migrated]. rewrite Hn.
    split; [rewrite Hj, skipn_length; lia|]. split; [|auto].
    intros u. specialize (Ham u). rewrite Hmig. rewrite S1, app_length in Ham. pose proof (count_le u l1). lia.
Qed.

Lemma nft_completes gas cs : forall t, nft_ready gas (tr_old t) -> Forall (steps_well DaoNft gas) cs ->
  nft_items (tr_old t) < N.of_nat (length cs) -> finished (tr_old (fst (treasury_run t cs))).
Proof.
  induction cs as [|c cs IH]; intros t Hr Hf Hlen; [cbn in Hlen; lia|].
  inversion Hf as [|? ? (limit & Hm & Hl & Hp & Hg) Hf']; subst.
  destruct (nft_progress gas (tc_gas c) (tr_old t) limit Hr Hg Hl Hp) as (o' & ms & Hs & Hcase).
  cbn [treasury_run]. unfold treasury_step. rewrite Hm. cbn [treasury_execute]. rewrite Hs. cbn [bind].
  set (t1 := tr_set_old t o'). assert (Ho : tr_old t1 = o') by reflexivity.
  destruct (treasury_run t1 cs) as [t2 m2] eqn:E2. cbn [fst]. replace t2 with (fst (treasury_run t1 cs)) by (rewrite E2; reflexivity).
  destruct Hcase as [Hfin|(Hr' & Hlt)].
  - rewrite finished_run; [exact Hfin|exact Hfin|]. eapply Forall_impl; [|exact Hf']. intros x (l & Hx & _). eauto.
  - apply IH; [exact Hr'|exact Hf'|]. rewrite Ho. cbn [length] in Hlen. lia.
Qed.

(** The stage becomes Completed only when nothing is left. *)
Lemma completed_means_done gas o limit o' msgs :
  typed_limit limit -> (og_type o = Some DaoNft -> nft_items o < M32) -> migration_step gas o limit = Ok (o', msgs) ->
  og_stage o' = Some MigrationCompleted ->
  (og_type o = Some DaoToken -> elems (og_stakes o') = [] /\ elems (og_claims o') = []) /\
  (og_type o = Some DaoNft -> elems (og_nfts o') = [] /\ elems (og_claims o') = []).
Proof.
  intros Hl Hsz H Hst. split; intros Ht.
  - apply token_migration_step in H; [|assumption|assumption].
    destruct H as (? & ? & ? & ? & _ & _ & _ & _ & _ & _ & _ & _ & _ & _ & [(_ & A & B & _)|(A & _)] & _); [auto|congruence].
  - apply nft_migration_step in H; [|assumption|assumption|apply Hsz; exact Ht].
    destruct H as (? & ? & ? & ? & _ & _ & _ & _ & _ & _ & _ & [(_ & A & B & _)|(A & _)] & _); [auto|congruence].
Qed.

(** An NFT claim in the table of a token DAO blocks the last step for good: with any amount of gas the step
    fails, as long as fewer items than the limit are left. *)
Lemma token_stuck gas o limit : typed_limit limit -> og_type o = Some DaoToken ->
  nft_claims (elems (og_claims o)) <> [] -> N.of_nat (token_items o) < step_limit DaoToken limit ->
  forall r, migration_step gas o limit <> Ok r.
Proof.
  intros Hl Ht Hn Hlt [o' msgs] H. apply token_migration_step in H; [|assumption|assumption].
  destruct H as (? & ? & l1 & l2 & _ & _ & S1 & C1 & N1 & _ & _ & _ & _ & _ & Hend & _).
  unfold token_items in Hlt. rewrite S1, C1, !app_length in Hlt.
  destruct Hend as [(_ & _ & E & _)|(_ & E)]; [|lia]. rewrite E in N1. cbn [nft_claims flat_map] in N1. congruence.
Qed.

(** ** C63: the weights of the old DAO's members do not change by the migration *)


Lemma fold_absent (l : list (N * N)) u : ~ In u (map fst l) -> forall d,
  fold_left (fun acc (x : N * N) => if fst x =? u then snd x else acc) l d = d.
Proof.
  induction l as [|[k v] r IH]; intros H d; [reflexivity|]. cbn [fold_left fst snd].
  destruct (k =? u) eqn:E; [apply N.eqb_eq in E; exfalso; apply H; left; exact E|].
  apply IH. intros Hin. apply H. right. exact Hin.
Qed.

Lemma credited_absent l m u : ~ In u (map fst l) -> credited m l u = ogetN m u.
Proof. intros H. apply fold_absent. exact H. Qed.

Lemma credited_present l : forall m u v, NoDup (map fst l) -> In (u, v) l -> credited m l u = v.
Proof.
  unfold credited. intros m u v. generalize (ogetN m u). induction l as [|[k w] r IH]; intros d Hnd Hin; [contradiction|].
  cbn [fold_left fst snd map] in *. inversion Hnd; subst. destruct Hin as [E|Hin].
  - inversion E; subst. rewrite N.eqb_refl. apply fold_absent. assumption.
  - apply IH; assumption.
Qed.

Lemma keys_NoDup {V} (m : omap V) : NoDup (map fst (elems m)).
Proof. apply okeys_NoDup. Qed.

Lemma step_weights gas o limit o' msgs u :
  typed_limit limit -> (og_type o = Some DaoNft -> nft_items o < M32) -> disjoint_weights o -> migration_step gas o limit = Ok (o', msgs) ->
  disjoint_weights o' /\ og_type o' = og_type o /\
  (og_type o = Some DaoToken -> ogetN (og_stakes o') u + ogetN (og_migrated o') u = ogetN (og_stakes o) u + ogetN (og_migrated o) u) /\
  (og_type o = Some DaoNft -> nft_count (og_nfts o') u + ogetN (og_migrated o') u = nft_count (og_nfts o) u + ogetN (og_migrated o) u) /\
  (og_type o = Some DaoMultisig -> og_members o' = og_members o /\ og_migrated o' = og_migrated o) /\
  (og_type o = Some DaoNft -> nft_items o' < M32).
Proof.
  intros Hl Hsz Hd H. pose proof H as H0. apply step_inv in H0. destruct H0 as (ty & ms0 & _ & _ & Ht & _).
  destruct ty.
  - exfalso. apply step_inv in H. destruct H as (ty & ms1 & o1 & n & Ht' & _ & H & _). unfold finalize_membership in H. rewrite Ht in H. discriminate.
  - apply token_migration_step in H; [|assumption|assumption].
    destruct H as (? & ? & l1 & l2 & _ & _ & S1 & _ & _ & _ & _ & _ & _ & _ & _ & Hm & _ & R1 & _).
    specialize (Hd Ht). pose proof (keys_NoDup (og_stakes o)) as Hnd. rewrite S1, map_app in Hnd.
    assert (Hl1 : forall v w, In (v, w) l1 -> ogetN (og_stakes o) v = w /\ oget (og_stakes o') v = None).
    { intros v w Hin. assert (Hin' : In (v, w) (elems (og_stakes o))) by (rewrite S1; apply in_or_app; left; exact Hin).
      apply oget_In in Hin'. split; [unfold ogetN; rewrite Hin'; reflexivity|].
      destruct (oget (og_stakes o') v) as [w'|] eqn:E; [|reflexivity]. exfalso. apply oget_In in E.
      clear -Hnd Hin E. induction l1 as [|[k x] r IH]; [contradiction|]. cbn [map app] in Hnd. inversion Hnd; subst.
      destruct Hin as [Hin|Hin]; [|apply IH; assumption]. inversion Hin; subst. apply H1. apply in_or_app. right.
      apply in_map_iff. exists (v, w'). auto. }
    assert (Hl2 : forall v w, oget (og_stakes o') v = Some w -> oget (og_stakes o) v = Some w).
    { intros v w E. apply oget_In. rewrite S1. apply in_or_app. right. apply oget_In. exact E. }
    assert (Hnd1 : NoDup (map fst l1)).
    { clear -Hnd. induction l1 as [|x r IH]; [constructor|]. cbn [map app] in *. inversion Hnd; subst. constructor; [|apply IH; assumption].
      intros Hi. apply H1. apply in_or_app. left. exact Hi. }
    split.
    { intros _ v w E. rewrite Hm. rewrite credited_absent; [eapply Hd, Hl2; exact E|].
      intros Hi. apply in_map_iff in Hi. destruct Hi as ([v' w'] & Ev & Hi). cbn in Ev. subst. apply Hl1 in Hi. destruct Hi as (_ & Hi). congruence. }
    split; [congruence|]. split; [|repeat split; intros; congruence].
    intros _. rewrite Hm. destruct (in_dec N.eq_dec u (map fst l1)) as [Hi|Hi].
    + apply in_map_iff in Hi. destruct Hi as ([u' w] & Eu & Hi). cbn in Eu. subst.
      rewrite (credited_present l1 _ u w Hnd1 Hi). destruct (Hl1 u w Hi) as (Hw & Hn).
      assert (Hin' : oget (og_stakes o) u = Some w) by (apply oget_In; rewrite S1; apply in_or_app; left; exact Hi).
      rewrite (Hd u w Hin'), Hw. unfold ogetN. rewrite Hn. cbn [dflt]. lia.
    + rewrite credited_absent by assumption. f_equal. unfold ogetN. f_equal.
      destruct (oget (og_stakes o') u) as [w|] eqn:E; [symmetry; apply Hl2; exact E|].
      destruct (oget (og_stakes o) u) as [w|] eqn:E2; [|reflexivity]. exfalso. apply oget_In in E2. rewrite S1 in E2. apply in_app_or in E2.
      destruct E2 as [E2|E2]; [apply Hi, in_map_iff; exists (u, w); auto|]. apply oget_In in E2. congruence.
  - apply nft_migration_step in H; [|assumption|assumption|apply Hsz; exact Ht].
    destruct H as (? & ? & l1 & l2 & _ & _ & S1 & C1 & _ & _ & _ & _ & Hm & _ & R1 & _).
    split; [intros Hx; congruence|]. split; [congruence|]. split; [intros; congruence|]. split; [|split; [intros; congruence|]].
    + intros _. unfold nft_count. rewrite Hm, S1, lsum_app. lia.
    + intros _. specialize (Hsz Ht). unfold nft_items in *. rewrite S1, C1, !app_length in Hsz. lia.
  - apply multisig_migration_step in H; [|assumption]. destruct H as (_ & ->). cbn [og_set_stage og_type og_members og_migrated].
    split; [intros Hx; cbn in Hx; congruence|]. split; [reflexivity|]. repeat split; intros; congruence.
Qed.

Lemma step_user_weight gas t limit o' msgs u :
  typed_limit limit -> (og_type (tr_old t) = Some DaoNft -> nft_items (tr_old t) < M32) -> disjoint_weights (tr_old t) ->
  migration_step gas (tr_old t) limit = Ok (o', msgs) ->
  forall t', tr_old t' = o' -> query_old_user_weight t' u = query_old_user_weight t u.
Proof.
  intros Hl Hsz Hd H t' Ho. pose proof (step_weights gas (tr_old t) limit o' msgs u Hl Hsz Hd H) as (_ & Ht & A & B & C & _).
  unfold query_old_user_weight. destruct (addr_validate u) as [v|e] eqn:Ev; [|reflexivity]. cbn [bind].
  apply addr_validate_ok in Ev. destruct Ev as [<- _].
  unfold pre_migration_weight. rewrite Ho, Ht. destruct (og_type (tr_old t)) as [ty|] eqn:Ety; [|reflexivity]. cbn [ok_or bind].
  destruct ty; cbn [bind]; [reflexivity|..]; unfold uint_cadd.
  - rewrite A by reflexivity. reflexivity.
  - rewrite B by reflexivity. reflexivity.
  - destruct C as (-> & ->); reflexivity.
Qed.

Lemma weights_history cs : forall t,
  Forall typed_call cs -> (og_type (tr_old t) = Some DaoNft -> nft_items (tr_old t) < M32) -> disjoint_weights (tr_old t) ->
  (forall u, query_old_user_weight (fst (treasury_run t cs)) u = query_old_user_weight t u) /\
  (forall x, query_old_total_weight (fst (treasury_run t cs)) x = query_old_total_weight t x).
Proof.
  induction cs as [|c cs IH]; intros t Hty Hsz Hd; [split; reflexivity|]. inversion Hty; subst. cbn [treasury_run].
  destruct (treasury_step t c) as [t1 m1] eqn:E1. destruct (treasury_run t1 cs) as [t2 m2] eqn:E2. cbn [fst].
  apply call_cases in E1. destruct E1 as [[Ho _]|(limit & Hm & Hs)].
  - specialize (IH t1 ltac:(assumption)). rewrite Ho, E2 in IH. specialize (IH Hsz Hd). destruct IH as (I1 & I2). split.
    + intros u. cbn [fst] in I1. rewrite I1. unfold query_old_user_weight. rewrite Ho. reflexivity.
    + intros x. cbn [fst] in I2. rewrite I2. unfold query_old_total_weight. rewrite Ho. reflexivity.
  - match goal with Hc : typed_call c |- _ => unfold typed_call in Hc; rewrite Hm in Hc; rename Hc into Hl end.
    pose proof (step_weights _ _ _ _ _ 0 Hl Hsz Hd Hs) as (Hd1 & Ht1 & _ & _ & _ & Hsz1).
    specialize (IH t1 ltac:(assumption)). rewrite Ht1, E2 in IH. specialize (IH Hsz1 Hd1). destruct IH as (I1 & I2). cbn [fst] in *. split.
    + intros u. rewrite I1. eapply step_user_weight; try eassumption. reflexivity.
    + intros x. rewrite I2. apply migration_step_msgs in Hs; [|assumption]. destruct Hs as ((_ & _ & _ & _ & R5 & R6) & _).
      unfold query_old_total_weight. rewrite R5, R6. reflexivity.
Qed.

(** ** The membership contract's side: a batch of stakes is taken in whole, or not at all *)


Lemma add_stakes_some o l : Forall (welcome o) l -> forall m ch sum,
  sum + lsum snd l < M128 -> (forall u, ogetN (m_weights m) u + lsum snd l < M128) ->
  exists m' ch', fold_res (add_stakes_one o) (m, ch, sum) l = Ok (m', ch', sum + lsum snd l).
Proof.
  induction 1 as [|[u a] r Hu Hr IH]; intros m ch sum Hs Hw; cbn [fold_res].
  - exists m, ch. cbn. f_equal. f_equal. lia.
  - rewrite lsum_cons in Hs. cbn [snd] in Hs.
    assert (Hw' : forall v, ogetN (m_weights m) v + (a + lsum snd r) < M128) by (intros v; specialize (Hw v); rewrite lsum_cons in Hw; exact Hw).
    unfold add_stakes_one at 1. destruct (a =? 0) eqn:E.
    + apply N.eqb_eq in E. subst. cbn [bind]. rewrite lsum_cons. cbn [snd]. rewrite N.add_0_l. apply IH; [lia|].
      intros v. specialize (Hw' v). lia.
    + apply N.eqb_neq in E. destruct (Hu E) as (Hu0 & Hres). cbn [fst] in *. unfold not_restricted. rewrite Hres. cbn [bind negb guard].
      unfold addr_validate. destruct (u =? 0) eqn:E0; [apply N.eqb_eq in E0; contradiction|]. cbn [bind].
      unfold uint_cadd, member_weight. pose proof (Hw' u) as Hwu. destruct (ogetN (m_weights m) u + a <? M128) eqn:E1; [|lia]. cbn [bind].
      destruct (sum + a <? M128) eqn:E2; [|lia]. cbn [bind]. rewrite lsum_cons. cbn [snd]. rewrite N.add_assoc. apply IH; [lia|].
      intros v. unfold set_member_weight. cbn [with_member_weights m_weights]. rewrite ogetN_oset. specialize (Hw' v).
      destruct (u =? v) eqn:E3; [apply N.eqb_eq in E3; subst; lia|lia].
Qed.

Lemma stakes_taken_in o s e token l :
  st_asset s = Cw20 token -> Forall (welcome o) l ->
  (forall u, member_weight (st_members s) u <= total_weight (st_members s)) ->
  total_weight (st_members s) + lsum snd l < M128 ->
  exists s' outs, token_receive o s e token (lsum snd l) (HAddStakes l) = Ok (s', outs) /\
    (forall u, member_weight (st_members s') u =
               member_weight (st_members s) u + lsum (fun x => if fst x =? u then snd x else 0) l) /\
    total_weight (st_members s') = total_weight (st_members s) + lsum snd l.
Proof.
  intros Ha Hf Hw Ht. unfold token_receive. rewrite Ha. cbn [asset_eqb]. rewrite N.eqb_refl. cbn [guard bind].
  destruct (add_stakes_some o l Hf (st_members s) [] 0) as (m' & ch' & Hl); [lia|intros u; specialize (Hw u); unfold member_weight in Hw; lia|].
  rewrite N.add_0_l in Hl.
  assert (Htot : total_weight m' = total_weight (st_members s)).
  { pose proof (add_stakes_loop _ _ _ _ _ _ _ _ Hl) as (w & more & -> & _). reflexivity. }
  assert (E : add_stakes o s e (lsum snd l) l =
     Ok (st_with_members s (save_total_weight m' e (total_weight m' + lsum snd l)), report (save_total_weight m' e (total_weight m' + lsum snd l)) ch')).
  { unfold add_stakes. rewrite Hl. cbn [bind]. rewrite N.eqb_refl. cbn [guard bind]. unfold increment_total_weight, uint_cadd, uint_add.
    rewrite Htot. destruct (total_weight (st_members s) + lsum snd l <? M128) eqn:E; [|lia]. cbn [bind]. reflexivity. }
  rewrite E. do 2 eexists. split; [reflexivity|]. apply add_stakes_loop in Hl. destruct Hl as (w & more & -> & _ & _ & _ & _ & _ & Hg).
  split.
  - intros u. unfold member_weight. cbn [st_with_members st_members]. cbn [save_total_weight with_member_weights m_weights]. apply Hg.
  - rewrite <- Htot. reflexivity.
Qed.

(** One restricted member holds up the whole batch. *)
Lemma stakes_refused o s e token l u a :
  st_asset s = Cw20 token -> In (u, a) l -> a <> 0 -> mo_restricted o u = Ok true ->
  forall r, token_receive o s e token (lsum snd l) (HAddStakes l) <> Ok r.
Proof.
  intros Ha Hin Hne Hres [s' outs] H. unfold token_receive in H. apply bind_ok in H. destruct H as (x & _ & H).
  apply add_stakes_ok in H. destruct H as (m & ch & Hl & _). apply add_stakes_loop in Hl. destruct Hl as (w & more & _ & _ & _ & _ & _ & Hr & Hg).
  assert (Hlt : ogetN (m_weights (st_members s)) u < ogetN w u).
  { rewrite Hg. apply in_split in Hin. destruct Hin as (l1 & l2 & ->). rewrite lsum_app, lsum_cons. cbn [fst snd]. rewrite N.eqb_refl. lia. }
  specialize (Hr u Hlt). congruence.
Qed.
