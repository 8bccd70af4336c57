(** The treasury properties C42-C44, C63 and what they add to C18, as lemmas. *)
From Coq Require Import Permutation.
From Verif Require Import Base OMap OMapLemmas Assets FundsModel FundsSpec FundsProofs FundsFacts MemberModel Msgs
  TreasuryModel TreasurySpec TreasuryProofs MigrationProofs.
Local Opaque M32.

(** ** C42 *)

Lemma admin_only_ok t sender u : tr_admin_only t sender = Ok u -> sender = tr_admin t.
Proof. intros H. apply guard_ok in H. apply N.eqb_eq in H. exact H. Qed.
Lemma admin_only_true t : tr_admin_only t (tr_admin t) = Ok tt.
Proof. unfold tr_admin_only. rewrite N.eqb_refl. reflexivity. Qed.

Lemma others_only_migrate gas t sender m t' msgs :
  treasury_execute gas t sender m = Ok (t', msgs) -> sender <> tr_admin t -> exists limit, m = TrMigrationStep limit.
Proof.
  intros H Hne. destruct m; [| | | | | |eauto]; cbn [treasury_execute] in H; unfold spend, tr_distribute, execute_cosmos_msgs in H;
    apply bind_ok in H; destruct H as (u & Hu & _); apply admin_only_ok in Hu; contradiction.
Qed.

Lemma spend_msg_ok to a m : spend_msg to a = Ok m <-> transfers to a m.
Proof.
  destruct a as [a n]. unfold spend_msg. cbn [fst snd]. split.
  - intros H. binv H. clean. apply check_asset_ok in Hb. destruct Hb as [-> Hc]. unfold transfer_msg in Hb0. cbn [fst snd] in Hb0.
    destruct x; clean; constructor. exact Hc.
  - intros H. inversion H; subst; cbn [check_asset bind transfer_msg fst snd].
    + reflexivity.
    + unfold addr_validate. match goal with |- context[?c =? 0] => destruct (c =? 0) eqn:E end; [apply N.eqb_eq in E; contradiction|]. reflexivity.
Qed.

Lemma map_res_Forall2 {A B} (f : A -> res B) (P : A -> B -> Prop) : (forall a b, f a = Ok b <-> P a b) ->
  forall l l', map_res f l = Ok l' <-> Forall2 P l l'.
Proof.
  intros H. induction l as [|a t IH]; intros l'; cbn [map_res].
  - split; intros E; [clean; constructor|inversion E; reflexivity].
  - split; intros E.
    + binv E. clean. constructor; [apply H|apply IH]; assumption.
    + inversion E; subst. apply H in H2. rewrite H2. cbn [bind]. apply IH in H4. rewrite H4. reflexivity.
Qed.

Lemma spend_exact gas t sender to assets t' msgs :
  treasury_execute gas t sender (TrSpend to assets) = Ok (t', msgs) <->
  sender = tr_admin t /\ t' = t /\ Forall2 (transfers to) assets msgs.
Proof.
  cbn [treasury_execute]. unfold spend. rewrite <- (map_res_Forall2 _ _ (spend_msg_ok to)). split.
  - intros H. binv H. clean. apply admin_only_ok in Hb. auto.
  - intros (-> & -> & H). rewrite admin_only_true. cbn [bind]. rewrite H. reflexivity.
Qed.


Lemma distribute_loop d funds : forall st r,
  fold_res (tr_distribute_one d) st funds = Ok r <->
  Forall distributable funds /\ r = (fst st ++ native_part funds, snd st ++ cw20_part d funds).
Proof.
  induction funds as [|[a n] t IH]; intros [coins ms] r; cbn [fold_res].
  - cbn [native_part cw20_part flat_map fst snd]. rewrite !app_nil_r. split; [intros H; clean; split; [constructor|reflexivity]|intros (_ & ->); reflexivity].
  - unfold tr_distribute_one at 1. cbn [fst snd]. destruct a as [dn|c|c i].
    + cbn [bind]. rewrite IH. cbn [fst snd]. unfold native_part, cw20_part. cbn [flat_map fst snd app].
      rewrite <- !app_assoc. cbn [app]. rewrite Forall_cons_iff. unfold distributable at 2. cbn [fst]. tauto.
    + rewrite Forall_cons_iff. unfold distributable at 1. cbn [fst]. unfold addr_validate. destruct (c =? 0) eqn:E.
      * cbn [bind]. split; [discriminate|]. apply N.eqb_eq in E. tauto.
      * cbn [bind]. rewrite IH. cbn [fst snd]. unfold native_part, cw20_part. cbn [flat_map fst snd app].
        rewrite <- !app_assoc. cbn [app]. apply N.eqb_neq in E. tauto.
    + cbn [bind]. rewrite Forall_cons_iff. unfold distributable at 1. cbn [fst]. split; [discriminate|tauto].
Qed.

Lemma distribute_exact gas t sender funds d t' msgs :
  treasury_execute gas t sender (TrDistribute funds d) = Ok (t', msgs) <->
  sender = tr_admin t /\ t' = t /\ d <> 0 /\ Forall distributable funds /\
  msgs = cw20_part d funds ++
         (if native_part funds then [] else [plain (WasmExecute d (ToFunds FDistributeNative) (native_part funds))]).
Proof.
  cbn [treasury_execute]. unfold tr_distribute. split.
  - intros H. apply bind_ok in H. destruct H as (u & Hu & H). apply admin_only_ok in Hu.
    apply bind_ok in H. destruct H as (d' & Hd & H). apply addr_validate_ok in Hd. destruct Hd as [<- Hd].
    apply bind_ok in H. destruct H as (r & Hr & H). apply distribute_loop in Hr. destruct Hr as (Hf & ->). cbn [fst snd app] in H. clean.
    repeat split; try assumption. destruct (native_part funds); reflexivity.
  - intros (-> & -> & Hd & Hf & ->). rewrite admin_only_true. cbn [bind].
    unfold addr_validate. destruct (d =? 0) eqn:E; [apply N.eqb_eq in E; contradiction|]. cbn [bind].
    rewrite (proj2 (distribute_loop d funds ([], []) _) (conj Hf eq_refl)). cbn [bind fst snd app].
    destruct (native_part funds); reflexivity.
Qed.

Lemma parse_exact l ms : parse_msgs l = Ok ms <-> l = map Some ms.
Proof.
  unfold parse_msgs. revert ms. induction l as [|a t IH]; intros ms; cbn [map_res].
  - split; intros H; [clean; reflexivity|destruct ms; [reflexivity|discriminate]].
  - split; intros H.
    + apply bind_ok in H. destruct H as (m & Hm & H). apply bind_ok in H. destruct H as (r & Hr & H). apply ok_or_ok in Hm.
      apply IH in Hr. inversion H; subst. reflexivity.
    + destruct ms as [|m ms]; [discriminate|]. cbn [map] in H. inversion H; subst. cbn [ok_or bind].
      rewrite (proj2 (IH ms) eq_refl). reflexivity.
Qed.

Lemma execute_exact gas t sender l t' msgs :
  treasury_execute gas t sender (TrExecute l) = Ok (t', msgs) <->
  sender = tr_admin t /\ t' = t /\ exists ms, l = map Some ms /\ msgs = map plain ms.
Proof.
  cbn [treasury_execute]. unfold execute_cosmos_msgs. split.
  - intros H. binv H. clean. apply admin_only_ok in Hb. apply parse_exact in Hb0. eauto 6.
  - intros (-> & -> & ms & -> & ->). rewrite admin_only_true. cbn [bind]. rewrite (proj2 (parse_exact _ ms) eq_refl). reflexivity.
Qed.

Lemma set_admin_exact gas t sender a t' msgs :
  treasury_execute gas t sender (TrSetAdmin a) = Ok (t', msgs) <->
  sender = tr_admin t /\ a <> 0 /\ t' = mk_treasury a (tr_natives t) (tr_cw20s t) (tr_cw1155s t) (tr_nfts t) (tr_old t) /\ msgs = [].
Proof.
  cbn [treasury_execute]. split.
  - intros H. apply bind_ok in H. destruct H as (u & Hu & H). apply admin_only_ok in Hu.
    apply bind_ok in H. destruct H as (d' & Hd & H). apply addr_validate_ok in Hd. destruct Hd as [<- Hd]. clean. auto.
  - intros (-> & Ha & -> & ->). rewrite admin_only_true. cbn [bind]. unfold addr_validate.
    destruct (a =? 0) eqn:E; [apply N.eqb_eq in E; contradiction|]. reflexivity.
Qed.

(** ** C44: one step *)


Lemma sum_loop l : forall s t, fold_res (fun s (x : N * N) => uint_add s (snd x)) s l = Ok t -> t = s + lsum snd l /\ (s < M128 -> t < M128).
Proof.
  induction l as [|[u n] r IH]; intros s t H; cbn [fold_res] in H.
  - clean. cbn. split; [lia|auto].
  - apply bind_ok in H. destruct H as (s1 & H1 & H). apply uint_add_ok in H1. destruct H1 as [-> Hlt]. cbn [snd] in *.
    apply IH in H. destruct H as [-> H]. rewrite lsum_cons. cbn [snd]. split; [lia|]. intros _. apply H. exact Hlt.
Qed.
Lemma sum_loop_some l : forall s, s + lsum snd l < M128 -> fold_res (fun s (x : N * N) => uint_add s (snd x)) s l = Ok (s + lsum snd l).
Proof.
  induction l as [|[u n] r IH]; intros s H; cbn [fold_res].
  - cbn. f_equal. lia.
  - rewrite lsum_cons in *. cbn [snd] in *. unfold uint_add at 1. destruct (s + n <? M128) eqn:E; [|lia]. cbn [bind].
    rewrite IH by lia. f_equal. lia.
Qed.

Definition stakes_msg (contract membership : addr) (l : list (N * N)) : list sub_msg :=
  if lsum snd l =? 0 then []
  else [plain (WasmExecute contract (ToCw20 (Cw20Send membership (lsum snd l) (HookMember (HAddStakes l)))) [])].
Definition claims_msg (contract membership : addr) (l : list (N * N * release_at)) : list sub_msg :=
  if lsum claim_amount l =? 0 then []
  else [plain (WasmExecute contract (ToCw20 (Cw20Send membership (lsum claim_amount l) (HookMember (HAddClaims l)))) [])].

Lemma take_count {A} n (l : list A) : N.of_nat (length (take n l)) = N.min n (N.of_nat (length l)).
Proof. unfold take. rewrite firstn_length. lia. Qed.

Lemma u32_sub_small a b : b <= a -> a < M32 -> u32_sub a b = a - b.
Proof.
  intros H1 H2. unfold u32_sub. replace (a + M32 - b) with (a - b + 1 * M32) by lia.
  rewrite N.mod_add by (pose proof M32_pos; lia). apply N.mod_small. lia.
Qed.


Lemma credit_loop l : forall m u, ogetN (fold_left (fun m (x : N * N) => oset m (fst x) (snd x)) l m) u = credited m l u.
Proof.
  induction l as [|[k v] t IH]; intros m u; cbn [fold_left]; [reflexivity|].
  rewrite IH. unfold credited. cbn [fold_left fst snd]. f_equal. rewrite ogetN_oset. reflexivity.
Qed.

Lemma token_step_ok gas o membership limit o' msgs n token :
  limit < M32 -> og_type o = Some DaoToken -> og_contract o = Some token ->
  finalize_membership gas o membership limit = Ok (o', msgs, n) ->
  exists ms mc,
    elems (og_stakes o) = ms ++ elems (og_stakes o') /\
    token_claims (elems (og_claims o)) = mc ++ token_claims (elems (og_claims o')) /\
    nft_claims (elems (og_claims o')) = nft_claims (elems (og_claims o)) /\
    msgs = stakes_msg token membership ms ++ claims_msg token membership mc /\
    lsum snd ms < M128 /\ lsum claim_amount mc < M128 /\
    N.of_nat (length ms) = N.min limit (N.of_nat (length (elems (og_stakes o)))) /\
    n = N.of_nat (length ms) + N.of_nat (length mc) /\ n <= limit /\
    (n < limit -> elems (og_stakes o') = [] /\ elems (og_claims o') = []) /\
    (forall u, ogetN (og_migrated o') u = credited (og_migrated o) ms u) /\
    og_nfts o' = og_nfts o /\ og_stage o' = og_stage o /\ same_rest o o'.
Proof.
  intros Hl Ht Hc H. unfold finalize_membership in H. rewrite Ht, Hc in H. cbn [ok_or bind] in H.
  apply bind_ok in H. destruct H as ([[o1 m1] n1] & H1 & H).
  apply bind_ok in H. destruct H as ([[o2 m2] n2] & H2 & H). clean.
  unfold migrate_stakes in H1. apply bind_ok in H1. destruct H1 as (tot & Hs & H1). clean.
  apply sum_loop in Hs. destruct Hs as (-> & Hs). specialize (Hs M128_pos). cbn [N.add] in *.
  set (batch := take limit (elems (og_stakes o))) in *.
  pose proof (take_count limit (elems (og_stakes o))) as Hlen. fold batch in Hlen.
  assert (Hn1 : N.of_nat (length batch) mod M32 = N.of_nat (length batch)) by (apply N.mod_small; lia). rewrite Hn1 in *.
  rewrite u32_sub_small in H2 by lia.
  unfold migrate_claims in H2. apply bind_ok in H2. destruct H2 as ([m' acc] & H2 & H3). cbn [fst snd] in H3. clean.
  cbn [og_set_stakes og_claims] in H2.
  apply claims_loop_ok in H2; [|lia]. destruct H2 as (mc & Hg & Hu & Hnft & He).
  pose proof Hg as (Hsent & Htot & Hinc & Hle & Hov). cbn [ca_sent ca_total ca_included app] in *. rewrite !N.add_0_l in *.
  specialize (Hle (N.le_0_l _)). specialize (Hov M128_pos).
  assert (Hst : elems (fold_left (fun m (x : N * N) => odel m (fst x)) batch (og_stakes o)) = skipn (N.to_nat limit) (elems (og_stakes o))) by apply odel_take.
  exists batch, mc. cbn [og_set_claims og_set_stakes og_stakes og_claims og_migrated og_nfts og_stage].
  split; [rewrite Hst; symmetry; apply firstn_skipn|].
  split; [exact Hu|]. split; [exact Hnft|].
  split; [unfold stakes_msg, claims_msg; rewrite Hsent, Htot; reflexivity|].
  split; [exact Hs|]. split; [lia|]. split; [exact Hlen|].
  split; [rewrite u32_add_small by lia; lia|].
  split; [rewrite u32_add_small by lia; lia|].
  split.
  { rewrite u32_add_small by lia. intros Hlt. split.
    - rewrite Hst. apply skipn_all2. lia.
    - apply He. lia. }
  split; [intros u; apply credit_loop|].
  repeat split.
Qed.

Lemma clear_loop batch : forall nfts migrated r post, elems nfts = batch ++ post ->
  fold_res clear_nft_stake (nfts, migrated) batch = Ok r ->
  elems (fst r) = post /\
  forall u, ogetN (snd r) u = ogetN migrated u + lsum (fun x : N * (addr * N) => if fst (snd x) =? u then 1 else 0) batch.
Proof.
  induction batch as [|[k [st tk]] t IH]; intros nfts migrated r post He H; cbn [fold_res] in H.
  - clean. cbn. split; [exact He|]. intros. lia.
  - apply bind_ok in H. destruct H as ([nf mg] & H1 & H). unfold clear_nft_stake in H1.
    apply bind_ok in H1. destruct H1 as (w & Hw & H1). apply uint_cadd_ok in Hw. destruct Hw as [-> _]. clean.
    assert (He' : elems (odel nfts k) = t ++ post) by (apply (odel_mid nfts [] _ k (st, tk)); exact He).
    apply (IH _ _ _ post He') in H. destruct H as (H1 & H2). split; [exact H1|].
    intros u. rewrite H2, lsum_cons. cbn [fst snd]. rewrite ogetN_oset. destruct (st =? u) eqn:E; [|lia].
    apply N.eqb_eq in E. subst. lia.
Qed.

Lemma clear_loop_some batch : forall nfts migrated,
  (forall u, ogetN migrated u + N.of_nat (length batch) < M128) ->
  exists r, fold_res clear_nft_stake (nfts, migrated) batch = Ok r.
Proof.
  induction batch as [|[k [st tk]] t IH]; intros nfts migrated H; cbn [fold_res]; [eauto|].
  unfold clear_nft_stake at 1. pose proof (H st) as Hst. cbn [length] in *. unfold uint_cadd.
  destruct (ogetN migrated st + 1 <? M128) eqn:E; [|lia]. cbn [bind]. apply IH.
  intros u. specialize (H u). rewrite ogetN_oset. destruct (st =? u) eqn:Eu; [apply N.eqb_eq in Eu; subst; lia|lia].
Qed.

Definition nft_stake_msgs (c ms : addr) (l : list (N * (addr * N))) : list sub_msg :=
  map (fun x => plain (WasmExecute c (ToCw721 (Cw721Send ms (snd (snd x)) (NStake (fst (snd x))))) [])) l.
Definition nft_claims_msgs (c ms : addr) (l : list (N * N * release_at)) : list sub_msg :=
  map (fun x => plain (WasmExecute c (ToCw721 (Cw721Send ms (snd (fst x)) (NAddClaim (fst (fst x)) (snd x)))) [])) l.

Lemma nft_step_ok gas o membership limit o' msgs n collection :
  limit < M32 -> N.of_nat (length (elems (og_nfts o)) + length (nft_claims (elems (og_claims o)))) < M32 ->
  og_type o = Some DaoNft -> og_contract o = Some collection ->
  finalize_membership gas o membership limit = Ok (o', msgs, n) ->
  exists ms mc,
    elems (og_nfts o) = ms ++ elems (og_nfts o') /\
    nft_claims (elems (og_claims o)) = mc ++ nft_claims (elems (og_claims o')) /\
    (exists j, elems (og_claims o') = skipn j (elems (og_claims o))) /\
    msgs = nft_stake_msgs collection membership ms ++ nft_claims_msgs collection membership mc /\
    N.of_nat (length ms) = N.min limit (N.of_nat (length (elems (og_nfts o)))) /\
    n = N.of_nat (length ms) + N.of_nat (length mc) /\
    (n < limit -> elems (og_nfts o') = [] /\ elems (og_claims o') = []) /\
    (forall u, ogetN (og_migrated o') u =
               ogetN (og_migrated o) u + lsum (fun x : N * (addr * N) => if fst (snd x) =? u then 1 else 0) ms) /\
    og_stakes o' = og_stakes o /\ og_stage o' = og_stage o /\ same_rest o o'.
Proof.
  intros Hl Hn Ht Hc H. unfold finalize_membership in H. rewrite Ht, Hc in H. cbn [ok_or bind] in H.
  apply bind_ok in H. destruct H as ([o1 m1] & H1 & H).
  apply bind_ok in H. destruct H as ([o2 m2] & H2 & H). clean.
  unfold migrate_nft_stakes in H1. apply bind_ok in H1. destruct H1 as (r & Hr & H1). clean.
  set (batch := take limit (elems (og_nfts o))) in *. rewrite map_length in H2.
  pose proof (take_count limit (elems (og_nfts o))) as Hlen. fold batch in Hlen.
  assert (Hn1 : N.of_nat (length batch) mod M32 = N.of_nat (length batch)) by (apply N.mod_small; lia). rewrite Hn1 in *.
  rewrite u32_sub_small in H2 by lia.
  unfold migrate_nft_claims in H2. apply bind_ok in H2. destruct H2 as ([m' ms'] & H2 & H3). cbn [fst snd] in H3. clean.
  cbn [og_set_nfts og_claims] in H2.
  apply nft_claims_loop_ok in H2; [|lia]. destruct H2 as (j & Hj & He & -> & Hend). cbn [app] in *. rewrite N.add_0_l in Hend.
  assert (Hsp : elems (og_nfts o) = batch ++ skipn (N.to_nat limit) (elems (og_nfts o))) by (symmetry; apply firstn_skipn).
  destruct (clear_loop batch _ _ _ _ Hsp Hr) as (Hr1 & Hr2).
  assert (Hcl : nft_claims (elems (og_claims o)) = nft_claims (firstn j (elems (og_claims o))) ++ nft_claims (elems m')).
  { rewrite He, <- nft_claims_app, firstn_skipn. reflexivity. }
  exists batch, (nft_claims (firstn j (elems (og_claims o)))).
  cbn [og_set_claims og_set_nfts og_stakes og_claims og_migrated og_nfts og_stage].
  split; [rewrite Hr1; exact Hsp|]. split; [exact Hcl|]. split; [exists j; exact He|].
  rewrite nft_claim_msgs_map.
  split; [reflexivity|]. split; [exact Hlen|].
  assert (Hcnt : N.of_nat (length (nft_claims (firstn j (elems (og_claims o))))) <= N.of_nat (length (nft_claims (elems (og_claims o))))) by (rewrite Hcl, app_length; lia).
  assert (Hnn : N.of_nat (length (map (fun x : N * (addr * N) => send_nft collection membership (snd (snd x)) (NStake (fst (snd x)))) batch ++
     map (fun x : N * N * release_at => send_nft collection membership (snd (fst x)) (NAddClaim (fst (fst x)) (snd x)))
       (nft_claims (firstn j (elems (og_claims o)))))) mod M32 =
     N.of_nat (length batch) + N.of_nat (length (nft_claims (firstn j (elems (og_claims o)))))).
  { rewrite app_length, !map_length. rewrite N.mod_small; lia. }
  split; [exact Hnn|]. split.
  { rewrite Hnn. intros Hlt. split; [rewrite Hr1; apply skipn_all2; lia|]. apply Hend. lia. }
  split; [exact Hr2|]. repeat split.
Qed.

(** *** The step as called *)

Lemma step_inv gas o limit o' msgs : migration_step gas o limit = Ok (o', msgs) ->
  exists ty membership o1 n,
    og_type o = Some ty /\ og_info o = Some (Some membership) /\
    finalize_membership gas o membership (step_limit ty limit) = Ok (o1, msgs, n) /\
    o' = og_set_stage o1 (if n <? step_limit ty limit then MigrationCompleted else MigrationInProgress) /\
    (og_stage o = Some MigrationInProgress \/ og_stage o = Some MigrationCompleted /\ has_unmoved o = true).
Proof.
  unfold migration_step. intros H.
  assert (Hs : migration_step_safe gas o limit = Ok (o', msgs) /\
    (og_stage o = Some MigrationInProgress \/ og_stage o = Some MigrationCompleted /\ has_unmoved o = true)).
  { destruct (og_stage o) as [[| |]|]; cbn [dflt] in H; try discriminate; [auto|].
    destruct (has_unmoved o); [auto|discriminate]. }
  clear H. destruct Hs as (H & Hst). unfold migration_step_safe in H.
  apply bind_ok in H. destruct H as (info & Hi & H). apply ok_or_ok in Hi.
  apply bind_ok in H. destruct H as (ms & Hm & H). apply ok_or_ok in Hm. subst.
  apply bind_ok in H. destruct H as (ty & Ht & H). apply ok_or_ok in Ht. cbv zeta in H.
  apply bind_ok in H. destruct H as ([[o1 ms1] n] & Hf & H). clean.
  exists ty, ms, o1, n. unfold step_limit. repeat split; assumption.
Qed.

Lemma typed_step ty limit : typed_limit limit -> step_limit ty limit < M32.
Proof.
  unfold typed_limit, step_limit. destruct limit as [l|]; cbn [dflt]; [auto|]. intros _. destruct ty; reflexivity.
Qed.

(** What a step does, for each kind of DAO. *)
Lemma token_migration_step gas o limit o' msgs : typed_limit limit -> og_type o = Some DaoToken ->
  migration_step gas o limit = Ok (o', msgs) ->
  exists token membership ms mc,
    og_contract o = Some token /\ og_info o = Some (Some membership) /\
    elems (og_stakes o) = ms ++ elems (og_stakes o') /\
    token_claims (elems (og_claims o)) = mc ++ token_claims (elems (og_claims o')) /\
    nft_claims (elems (og_claims o')) = nft_claims (elems (og_claims o)) /\
    msgs = (if lsum snd ms =? 0 then []
            else [plain (WasmExecute token (ToCw20 (Cw20Send membership (lsum snd ms) (HookMember (HAddStakes ms)))) [])]) ++
           (if lsum claim_amount mc =? 0 then []
            else [plain (WasmExecute token (ToCw20 (Cw20Send membership (lsum claim_amount mc) (HookMember (HAddClaims mc)))) [])]) /\
    lsum snd ms < M128 /\ lsum claim_amount mc < M128 /\
    N.of_nat (length ms) = N.min (step_limit DaoToken limit) (N.of_nat (length (elems (og_stakes o)))) /\
    N.of_nat (length ms + length mc) <= step_limit DaoToken limit /\
    (og_stage o' = Some MigrationCompleted /\ elems (og_stakes o') = [] /\ elems (og_claims o') = [] /\
       N.of_nat (length ms + length mc) < step_limit DaoToken limit \/
     og_stage o' = Some MigrationInProgress /\ N.of_nat (length ms + length mc) = step_limit DaoToken limit) /\
    (forall u, ogetN (og_migrated o') u = credited (og_migrated o) ms u) /\
    og_nfts o' = og_nfts o /\ same_rest o o'.
Proof.
  intros Hl Ht H. apply step_inv in H. destruct H as (ty & membership & o1 & n & Ht' & Hi & H & -> & Hst).
  rewrite Ht in Ht'. inversion Ht'; subst ty. clear Ht'.
  assert (Hc : exists token, og_contract o = Some token).
  { unfold finalize_membership in H. rewrite Ht in H. cbn [ok_or bind] in H. destruct (og_contract o); [eauto|discriminate]. }
  destruct Hc as (token & Hc).
  pose proof (token_step_ok _ _ _ _ _ _ _ _ (typed_step DaoToken limit Hl) Ht Hc H) as
    (ms & mc & A1 & A2 & A3 & A4 & A5 & A6 & A7 & A8 & A9 & A10 & A11 & A12 & A13 & A14).
  exists token, membership, ms, mc. cbn [og_set_stage og_stakes og_claims og_migrated og_nfts og_stage].
  split; [exact Hc|]. split; [exact Hi|]. do 5 (split; [assumption|]).
  split; [assumption|]. split; [assumption|]. split; [lia|].
  split.
  { destruct (n <? step_limit DaoToken limit) eqn:E.
    - left. apply N.ltb_lt in E. destruct (A10 E). repeat split; try assumption. lia.
    - right. apply N.ltb_ge in E. split; [reflexivity|lia]. }
  split; [exact A11|]. split; [exact A12|]. destruct A14 as (B1 & B2 & B3 & B4 & B5 & B6). repeat split; assumption.
Qed.

Lemma nft_migration_step gas o limit o' msgs : typed_limit limit -> og_type o = Some DaoNft ->
  N.of_nat (length (elems (og_nfts o)) + length (nft_claims (elems (og_claims o)))) < M32 ->
  migration_step gas o limit = Ok (o', msgs) ->
  exists collection membership ms mc,
    og_contract o = Some collection /\ og_info o = Some (Some membership) /\
    elems (og_nfts o) = ms ++ elems (og_nfts o') /\
    nft_claims (elems (og_claims o)) = mc ++ nft_claims (elems (og_claims o')) /\
    (exists j, elems (og_claims o') = skipn j (elems (og_claims o))) /\
    msgs = map (fun x : N * (addr * N) =>
                  plain (WasmExecute collection (ToCw721 (Cw721Send membership (snd (snd x)) (NStake (fst (snd x))))) [])) ms ++
           map (fun x : N * N * release_at =>
                  plain (WasmExecute collection (ToCw721 (Cw721Send membership (snd (fst x)) (NAddClaim (fst (fst x)) (snd x)))) [])) mc /\
    N.of_nat (length ms) = N.min (step_limit DaoNft limit) (N.of_nat (length (elems (og_nfts o)))) /\
    (og_stage o' = Some MigrationCompleted /\ elems (og_nfts o') = [] /\ elems (og_claims o') = [] /\
       N.of_nat (length ms + length mc) < step_limit DaoNft limit \/
     og_stage o' = Some MigrationInProgress /\ step_limit DaoNft limit <= N.of_nat (length ms + length mc)) /\
    (forall u, ogetN (og_migrated o') u =
               ogetN (og_migrated o) u + lsum (fun x : N * (addr * N) => if fst (snd x) =? u then 1 else 0) ms) /\
    og_stakes o' = og_stakes o /\ same_rest o o'.
Proof.
  intros Hl Ht Hn H. apply step_inv in H. destruct H as (ty & membership & o1 & n & Ht' & Hi & H & -> & Hst).
  rewrite Ht in Ht'. inversion Ht'; subst ty. clear Ht'.
  assert (Hc : exists collection, og_contract o = Some collection).
  { unfold finalize_membership in H. rewrite Ht in H. cbn [ok_or bind] in H. destruct (og_contract o); [eauto|discriminate]. }
  destruct Hc as (collection & Hc).
  pose proof (nft_step_ok _ _ _ _ _ _ _ _ (typed_step DaoNft limit Hl) Hn Ht Hc H) as
    (ms & mc & A1 & A2 & A3 & A4 & A5 & A6 & A7 & A8 & A9 & A10 & A11).
  exists collection, membership, ms, mc. cbn [og_set_stage og_stakes og_claims og_migrated og_nfts og_stage].
  split; [exact Hc|]. split; [exact Hi|]. do 5 (split; [assumption|]).
  split.
  { destruct (n <? step_limit DaoNft limit) eqn:E.
    - left. apply N.ltb_lt in E. destruct (A7 E). repeat split; try assumption. lia.
    - right. apply N.ltb_ge in E. split; [reflexivity|lia]. }
  split; [exact A8|]. split; [exact A9|]. destruct A11 as (B1 & B2 & B3 & B4 & B5 & B6). repeat split; assumption.
Qed.

Lemma multisig_migration_step gas o limit o' msgs : og_type o = Some DaoMultisig ->
  migration_step gas o limit = Ok (o', msgs) ->
  msgs = [] /\ o' = og_set_stage o (if 0 <? step_limit DaoMultisig limit then MigrationCompleted else MigrationInProgress).
Proof.
  intros Ht H. apply step_inv in H. destruct H as (ty & membership & o1 & n & Ht' & Hi & H & -> & Hst).
  rewrite Ht in Ht'. inversion Ht'; subst ty. unfold finalize_membership in H. rewrite Ht in H. cbn [ok_or bind] in H. clean. auto.
Qed.

(** *** What calls leave alone *)

(** The messages of a step are transfers of the old membership's tokens to the new membership contract. *)
Lemma nft_claims_loop_all (P : sub_msg -> Prop) c ms limit : (forall t u r, P (send_nft c ms t (NAddClaim u r))) -> forall gas m k msgs m' msgs',
  nft_claims_loop gas c ms limit m k msgs = Ok (m', msgs') -> Forall P msgs -> Forall P msgs'.
Proof.
  intros HP. induction gas as [|gas IH]; intros m k msgs m' msgs' H Hf; cbn [nft_claims_loop] in H;
    destruct ((k <? limit) && negb match elems m with [] => true | _ => false end); try discriminate; clean; try assumption.
  apply IH in H; [exact H|]. apply Forall_app. split; [exact Hf|]. rewrite nft_claim_msgs_map. apply Forall_map.
  apply Forall_forall. intros. apply HP.
Qed.

Lemma migration_step_msgs gas o limit o' msgs : typed_limit limit -> migration_step gas o limit = Ok (o', msgs) ->
  same_rest o o' /\
  Forall (fun m => exists c membership, og_contract o = Some c /\ og_info o = Some (Some membership) /\ migration_msg c membership m) msgs.
Proof.
  intros Hl H. pose proof H as H0. apply step_inv in H. destruct H as (ty & membership & o1 & n & Ht & Hi & H & -> & _).
  destruct ty.
  - unfold finalize_membership in H. rewrite Ht in H. discriminate.
  - apply token_migration_step in H0; [|assumption|assumption].
    destruct H0 as (token & ms' & l & lc & Hc & Hi' & _ & _ & _ & -> & Hs & Hs' & _ & _ & _ & _ & _ & Hr).
    split; [exact Hr|]. apply Forall_app. split.
    + destruct (lsum snd l =? 0) eqn:E; [constructor|]. constructor; [|constructor]. exists token, ms'. repeat split; try assumption.
      constructor; [apply N.eqb_neq; exact E|exact Hs].
    + destruct (lsum claim_amount lc =? 0) eqn:E; [constructor|]. constructor; [|constructor]. exists token, ms'. repeat split; try assumption.
      constructor; [apply N.eqb_neq; exact E|exact Hs'].
  - unfold finalize_membership in H. rewrite Ht in H. cbn [ok_or bind] in H.
    destruct (og_contract o) as [c|] eqn:Hc; [|discriminate]. cbn [ok_or bind] in H.
    apply bind_ok in H. destruct H as ([o2 m1] & H1 & H).
    apply bind_ok in H. destruct H as ([o3 m2] & H2 & H). clean.
    unfold migrate_nft_stakes in H1. apply bind_ok in H1. destruct H1 as (r & Hr & H1). clean.
    unfold migrate_nft_claims in H2. apply bind_ok in H2. destruct H2 as ([m' ms'] & H2 & H3). clean.
    split; [repeat split; try assumption; symmetry; assumption|]. apply Forall_app. split.
    + apply Forall_map, Forall_forall. intros [k [st tk]] _. cbn [fst snd]. exists c, membership.
      repeat split; try assumption. apply mig_nft_stake.
    + cbn [snd]. eapply nft_claims_loop_all; [|exact H2|constructor]. intros. exists c, membership.
      repeat split; try assumption. apply mig_nft_claim.
  - apply multisig_migration_step in H0; [|assumption]. destruct H0 as (-> & H0). split; [|constructor].
    rewrite H0. repeat split.
Qed.


Lemma migrate_exact gas t sender limit t' msgs :
  treasury_execute gas t sender (TrMigrationStep limit) = Ok (t', msgs) <->
  migration_step gas (tr_old t) limit = Ok (tr_old t', msgs) /\ tr_admin t' = tr_admin t /\ same_lists t t'.
Proof.
  cbn [treasury_execute]. split.
  - intros H. apply bind_ok in H. destruct H as ([o ms] & H1 & H). clean. split; [exact H1|]. repeat split.
  - intros (H & Ha & H1 & H2 & H3 & H4). rewrite H. cbn [bind]. destruct t'. cbn in *. subst. reflexivity.
Qed.

Lemma strangers_history t cs t' msgs :
  treasury_run t cs = (t', msgs) ->
  Forall (fun c => tc_sender c <> tr_admin t /\ match tc_msg c with TrMigrationStep l => typed_limit l | _ => True end) cs ->
  tr_admin t' = tr_admin t /\ same_lists t t' /\
  Forall (fun m => exists c membership, og_contract (tr_old t) = Some c /\ og_info (tr_old t) = Some (Some membership) /\
                                        migration_msg c membership m) msgs.
Proof.
  revert t t' msgs. induction cs as [|c cs IH]; intros t t' msgs H Hf; cbn [treasury_run] in H.
  - inversion H; subst. repeat split. constructor.
  - inversion Hf as [|? ? [Hs Hty] Hf']; subst. clear Hf. unfold treasury_step in H.
    destruct (treasury_execute (tc_gas c) t (tc_sender c) (tc_msg c)) as [[t1 m1]|e] eqn:E.
    + destruct (others_only_migrate _ _ _ _ _ _ E Hs) as (limit & Hm). rewrite Hm in E, Hty.
      apply migrate_exact in E. destruct E as (E & Ha & L1 & L2 & L3 & L4).
      apply migration_step_msgs in E; [|assumption]. destruct E as ((R1 & R2 & R3 & R4 & R5 & R6) & Hms).
      destruct (treasury_run t1 cs) as [t2 m2] eqn:E2. inversion H; subst.
      apply IH in E2; [|rewrite Ha; exact Hf']. destruct E2 as (A1 & (A2 & A3 & A4 & A5) & A6).
      split; [congruence|]. split; [unfold same_lists; repeat split; congruence|]. apply Forall_app. split; [exact Hms|].
      rewrite R2, R4 in A6. exact A6.
    + destruct (treasury_run t cs) as [t2 m2] eqn:E2. inversion H; subst. apply IH in E2; assumption.
Qed.

(** A treasury that the factory creates has no old DAO, so no one but the admin can make it send anything. *)
Lemma fold_add_nft_old l : forall t t', fold_res add_nft t l = Ok t' -> tr_old t' = tr_old t /\ tr_admin t' = tr_admin t.
Proof. intros t t' H. apply add_nfts_ok in H. destruct H as (_ & (Ha & Ho) & _). auto. Qed.

Lemma listed_ext t t' a : tr_natives t' = tr_natives t -> tr_cw20s t' = tr_cw20s t -> tr_cw1155s t' = tr_cw1155s t ->
  (listed t a <-> listed t' a).
Proof. intros H1 H2 H3. destruct a; cbn [listed]; rewrite ?H1, ?H2, ?H3; reflexivity. Qed.

Lemma instantiate_ok admin assets nfts t : treasury_instantiate admin assets nfts = Ok t ->
  tr_admin t = admin /\ admin <> 0 /\ tr_old t = no_old_dao /\ lists_ok t /\
  (forall a, listed t a <-> In a (dflt [] assets)) /\ (forall n, nft_listed t n <-> In n (dflt [] nfts)).
Proof.
  unfold treasury_instantiate. intros H. apply bind_ok in H. destruct H as (a & Ha & H). apply addr_validate_ok in Ha. destruct Ha as [<- Ha].
  apply bind_ok in H. destruct H as (t1 & H1 & H).
  assert (Hl0 : lists_ok (mk_treasury admin oempty oempty oempty oempty no_old_dao)) by (repeat split).
  pose proof (add_assets_lists _ _ _ Hl0 H1) as Hl1. pose proof (add_nfts_lists _ _ _ Hl1 H) as Hl2.
  apply add_assets_ok in H1. destruct H1 as (L & (A1 & O1) & N1 & _).
  apply add_nfts_ok in H. destruct H as (L2 & (A2 & O2) & N2 & C2 & D2).
  cbn [tr_admin tr_old tr_nfts tr_natives tr_cw20s tr_cw1155s] in *.
  split; [congruence|]. split; [exact Ha|]. split; [congruence|]. split; [exact Hl2|]. split.
  - intros b. rewrite <- (listed_ext t1 t b N2 C2 D2), L. destruct b; cbn [listed tr_natives tr_cw20s tr_cw1155s]; [| |split];
      try (rewrite oget_empty; intuition congruence).
    intros [(m & Hm & _)|Hin]; [rewrite oget_empty in Hm; discriminate|exact Hin].
  - intros n. rewrite L2. unfold nft_listed at 1. rewrite N1, oget_empty. intuition congruence.
Qed.

Lemma fresh_history admin assets nfts t cs t' msgs :
  treasury_instantiate admin assets nfts = Ok t -> treasury_run t cs = (t', msgs) ->
  tr_old t' = no_old_dao /\ forall gas sender limit, treasury_execute gas t' sender (TrMigrationStep limit) = Err EInvalidState.
Proof.
  intros Hi. apply instantiate_ok in Hi. destruct Hi as (_ & _ & Ho & _). revert t t' msgs Ho.
  assert (Hno : forall t, tr_old t = no_old_dao -> forall gas sender limit, treasury_execute gas t sender (TrMigrationStep limit) = Err EInvalidState).
  { intros t Ho gas sender limit. cbn [treasury_execute]. rewrite Ho. reflexivity. }
  induction cs as [|c cs IH]; intros t t' msgs Ho H; cbn [treasury_run] in H; [inversion H; subst; auto|].
  unfold treasury_step in H. destruct (treasury_execute (tc_gas c) t (tc_sender c) (tc_msg c)) as [[t1 m1]|e] eqn:E.
  - destruct (treasury_run t1 cs) as [t2 m2] eqn:E2. inversion H; subst. eapply IH; [|exact E2].
    destruct (tc_msg c).
    + apply set_admin_exact in E. destruct E as (_ & _ & -> & _). exact Ho.
    + cbn [treasury_execute] in E. apply bind_ok in E. destruct E as (u & _ & E). apply bind_ok in E. destruct E as (ta & Ha & E).
      apply bind_ok in E. destruct E as (tb & Hb & E). clean. apply add_assets_ok in Ha. apply remove_assets_ok in Hb.
      destruct Ha as (_ & (_ & Ha) & _). destruct Hb as (_ & (_ & Hb) & _). congruence.
    + cbn [treasury_execute] in E. apply bind_ok in E. destruct E as (u & _ & E). apply bind_ok in E. destruct E as (ta & Ha & E).
      apply bind_ok in E. destruct E as (tb & Hb & E). clean. apply add_nfts_ok in Ha. apply remove_nfts_ok in Hb.
      destruct Ha as (_ & (_ & Ha) & _). destruct Hb as (_ & (_ & Hb) & _). congruence.
    + apply spend_exact in E. destruct E as (_ & -> & _). exact Ho.
    + apply distribute_exact in E. destruct E as (_ & -> & _). exact Ho.
    + apply execute_exact in E. destruct E as (_ & -> & _). exact Ho.
    + rewrite (Hno _ Ho) in E. discriminate.
  - destruct (treasury_run t cs) as [t2 m2] eqn:E2. inversion H; subst. eapply IH; eassumption.
Qed.

Lemma fresh_silent admin assets nfts t cs t' msgs :
  treasury_instantiate admin assets nfts = Ok t -> treasury_run t cs = (t', msgs) ->
  Forall (fun c => tc_sender c <> admin) cs -> t' = t /\ msgs = [].
Proof.
  intros Hi. apply instantiate_ok in Hi. destruct Hi as (<- & _ & Ho & _). revert t' msgs.
  induction cs as [|c cs IH]; intros t' msgs H Hf; cbn [treasury_run] in H; [inversion H; auto|].
  inversion Hf as [|? ? Hs Hf']; subst. unfold treasury_step in H.
  destruct (treasury_execute (tc_gas c) t (tc_sender c) (tc_msg c)) as [[t1 m1]|e] eqn:E.
  - destruct (others_only_migrate _ _ _ _ _ _ E Hs) as (limit & Hm). rewrite Hm in E. cbn [treasury_execute] in E. rewrite Ho in E. discriminate.
  - destruct (treasury_run t cs) as [t2 m2] eqn:E2. inversion H; subst. apply IH; [reflexivity|assumption].
Qed.

(** ** C43 *)

Lemma lists_step gas t sender m t' msgs : lists_ok t -> treasury_execute gas t sender m = Ok (t', msgs) -> lists_ok t'.
Proof.
  intros Hl E. destruct m.
  - apply set_admin_exact in E. destruct E as (_ & _ & -> & _). exact Hl.
  - cbn [treasury_execute] in E. apply bind_ok in E. destruct E as (u & _ & E). apply bind_ok in E. destruct E as (ta & Ha & E).
    apply bind_ok in E. destruct E as (tb & Hb & E). clean. eapply remove_assets_lists; [|exact Hb]. eapply add_assets_lists; eassumption.
  - cbn [treasury_execute] in E. apply bind_ok in E. destruct E as (u & _ & E). apply bind_ok in E. destruct E as (ta & Ha & E).
    apply bind_ok in E. destruct E as (tb & Hb & E). clean. eapply remove_nfts_lists; [|exact Hb]. eapply add_nfts_lists; eassumption.
  - apply spend_exact in E. destruct E as (_ & -> & _). exact Hl.
  - apply distribute_exact in E. destruct E as (_ & -> & _). exact Hl.
  - apply execute_exact in E. destruct E as (_ & -> & _). exact Hl.
  - apply migrate_exact in E. destruct E as (_ & _ & H1 & H2 & H3 & H4). unfold lists_ok. rewrite H2, H3, H4. exact Hl.
Qed.

Lemma lists_history t cs : lists_ok t -> lists_ok (fst (treasury_run t cs)).
Proof.
  revert t. induction cs as [|c cs IH]; intros t Hl; cbn [treasury_run]; [exact Hl|].
  unfold treasury_step. destruct (treasury_execute (tc_gas c) t (tc_sender c) (tc_msg c)) as [[t1 m1]|e] eqn:E.
  - apply lists_step in E; [|assumption]. specialize (IH _ E). destruct (treasury_run t1 cs). exact IH.
  - specialize (IH _ Hl). destruct (treasury_run t cs). exact IH.
Qed.

Lemma query_limit_pos limit : limit <> Some 0 -> (0 < N.to_nat (query_limit limit))%nat.
Proof.
  intros H. unfold query_limit. destruct limit as [l|]; cbn [dflt].
  - assert (l <> 0) by congruence. lia.
  - change (N.min 30 100) with 30. lia.
Qed.

Lemma whitelist_paging t : lists_ok t ->
  exists W, NoDup W /\ (forall a, In a W <-> listed t a) /\
    forall limit, limit <> Some 0 ->
      pages_of W (N.to_nat (N.min (dflt 30 limit) 100)) (fun start => query_asset_whitelist t start limit) /\
      forall fuel, (length W < fuel)%nat -> read_pages fuel (fun start => query_asset_whitelist t start limit) None = Ok W.
Proof.
  intros Hl. exists (all_assets t). split; [apply all_assets_NoDup|]. split; [apply all_assets_In|].
  intros limit Hlim. pose proof (query_pages t limit Hl) as Hp. split; [exact Hp|].
  intros fuel Hf. apply (read_all (all_assets t) _ _ (query_limit_pos limit Hlim) Hp fuel 0%nat).
  - lia.
  - cbn [skipn]. apply Hp.
Qed.

Lemma okeys_NoDup {V} (m : omap V) : NoDup (okeys m).
Proof.
  unfold okeys. apply (strong_NoDup (fun a b => (a <? b) = true)).
  - intros a H. rewrite N.ltb_irrefl in H. discriminate.
  - apply strong_map with (R := fun a b : N * V => (fst a <? fst b) = true); [auto|]. apply sorted_strong, elems_sorted.
Qed.

Lemma nft_whitelist_paging t : lists_ok t ->
  exists W, NoDup W /\ (forall a, In a W <-> nft_listed t a) /\
    forall limit, limit <> Some 0 ->
      pages_of W (N.to_nat (N.min (dflt 30 limit) 100)) (fun start => query_nft_whitelist t start limit) /\
      forall fuel, (length W < fuel)%nat -> read_pages fuel (fun start => query_nft_whitelist t start limit) None = Ok W.
Proof.
  intros Hl. exists (okeys (tr_nfts t)). split; [apply okeys_NoDup|]. split.
  - intros a. rewrite okeys_In. unfold nft_listed. apply oget_unit.
  - intros limit Hlim. pose proof (nft_pages t limit Hl) as Hp. split; [exact Hp|].
    intros fuel Hf. apply (read_all _ _ _ (query_limit_pos limit Hlim) Hp fuel 0%nat).
    + lia.
    + cbn [skipn]. apply Hp.
Qed.

Lemma update_assets_ok gas t sender add remove t' msgs :
  treasury_execute gas t sender (TrUpdateAssets add remove) = Ok (t', msgs) ->
  sender = tr_admin t /\ msgs = [] /\
  (forall a, listed t' a <-> (listed t a \/ In a add) /\ ~ In a remove) /\
  tr_nfts t' = tr_nfts t /\ tr_admin t' = tr_admin t /\ tr_old t' = tr_old t.
Proof.
  cbn [treasury_execute]. intros E. apply bind_ok in E. destruct E as (u & Hu & E). apply admin_only_ok in Hu.
  apply bind_ok in E. destruct E as (ta & Ha & E). apply bind_ok in E. destruct E as (tb & Hb & E). clean.
  apply add_assets_ok in Ha. destruct Ha as (L1 & (A1 & O1) & N1 & _).
  apply remove_assets_ok in Hb. destruct Hb as (L2 & (A2 & O2) & N2).
  repeat split; try congruence; intros; rewrite L2, L1 in *; tauto.
Qed.

Lemma update_nfts_ok gas t sender add remove t' msgs :
  treasury_execute gas t sender (TrUpdateNfts add remove) = Ok (t', msgs) ->
  sender = tr_admin t /\ msgs = [] /\
  (forall a, nft_listed t' a <-> (nft_listed t a \/ In a add) /\ ~ In a remove) /\
  tr_natives t' = tr_natives t /\ tr_cw20s t' = tr_cw20s t /\ tr_cw1155s t' = tr_cw1155s t /\
  tr_admin t' = tr_admin t /\ tr_old t' = tr_old t.
Proof.
  cbn [treasury_execute]. intros E. apply bind_ok in E. destruct E as (u & Hu & E). apply admin_only_ok in Hu.
  apply bind_ok in E. destruct E as (ta & Ha & E). apply bind_ok in E. destruct E as (tb & Hb & E). clean.
  apply add_nfts_ok in Ha. destruct Ha as (L1 & (A1 & O1) & N1 & C1 & D1).
  apply remove_nfts_ok in Hb. destruct Hb as (L2 & (A2 & O2) & N2 & C2 & D2).
  split; [reflexivity|]. split; [reflexivity|]. split; [intros; rewrite L2, L1; tauto|]. repeat split; congruence.
Qed.


Lemma addr_validate_some a : is_ok (addr_validate a) = true <-> a <> 0.
Proof. unfold addr_validate. destruct (a =? 0) eqn:E; cbn; [apply N.eqb_eq in E|apply N.eqb_neq in E]; intuition congruence. Qed.

Lemma add_assets_some t l : is_ok (add_assets t l) = true <-> Forall addable l.
Proof.
  unfold add_assets.
  assert (H1 : forall l, Forall valid_asset l -> map_res check_asset l = Ok l).
  { induction 1 as [|a r Ha Hr IH]; [reflexivity|]. cbn [map_res]. rewrite IH.
    destruct a as [d|c|c i]; cbn [check_asset valid_asset bind] in *; [reflexivity| |];
      unfold addr_validate; apply N.eqb_neq in Ha; rewrite Ha; reflexivity. }
  assert (H2 : forall l t, Forall addable l -> is_ok (fold_res add_asset t l) = true).
  { clear. induction l as [|a r IH]; intros t H; [reflexivity|]. inversion H as [|? ? [_ Ha] Hr]; subst. cbn [fold_res].
    destruct a; [| |contradiction]; cbn [add_asset bind]; apply IH; exact Hr. }
  split.
  - intros H. destruct (map_res check_asset l) as [l'|] eqn:E; [|discriminate]. cbn [bind] in H.
    pose proof (map_res_check _ _ E) as ->.
    assert (Hv : Forall valid_asset l).
    { clear -E. induction l as [|a r IH]; constructor; cbn [map_res] in E; binv E; clean.
      - apply check_asset_ok in Hb. apply Hb.
      - apply IH. assumption. }
    clear E H1 H2. revert t H. induction l as [|a r IH]; intros t H; [constructor|]. inversion Hv; subst. cbn [fold_res] in H.
    constructor.
    + split; [assumption|]. destruct a; [exact I..|discriminate].
    + destruct a; cbn [add_asset bind] in H; [| |discriminate]; eapply IH; eassumption.
  - intros H. rewrite H1 by (eapply Forall_impl; [|exact H]; intros a [Ha _]; exact Ha). cbn [bind]. apply H2. exact H.
Qed.

Lemma remove_assets_some l : forall t, is_ok (remove_assets t l) = true <-> Forall valid_asset l.
Proof.
  unfold remove_assets. induction l as [|a r IH]; intros t; cbn [fold_res]; [split; [constructor|reflexivity]|].
  rewrite Forall_cons_iff. destruct a as [d|c|c i]; cbn [remove_asset valid_asset]; unfold addr_validate.
  - cbn [bind]. rewrite IH. tauto.
  - destruct (c =? 0) eqn:E; cbn [bind is_ok]; [apply N.eqb_eq in E; intuition congruence|].
    apply N.eqb_neq in E. rewrite IH. tauto.
  - destruct (c =? 0) eqn:E; cbn [bind is_ok]; [apply N.eqb_eq in E; intuition congruence|].
    apply N.eqb_neq in E. rewrite IH. tauto.
Qed.

Lemma update_assets_accepted gas t sender add remove :
  is_ok (treasury_execute gas t sender (TrUpdateAssets add remove)) = true <->
  sender = tr_admin t /\ Forall addable add /\ Forall valid_asset remove.
Proof.
  cbn [treasury_execute]. unfold tr_admin_only. destruct (sender =? tr_admin t) eqn:E; cbn [guard bind is_ok].
  - apply N.eqb_eq in E. rewrite <- (add_assets_some t add).
    destruct (add_assets t add) as [t1|]; cbn [bind is_ok]; [|intuition congruence].
    rewrite <- (remove_assets_some remove t1). destruct (remove_assets t1 remove); cbn [bind is_ok]; intuition congruence.
  - apply N.eqb_neq in E. intuition congruence.
Qed.

(** ** C18: the funds distributor reading this treasury's list, in its pages of 30 *)


Lemma only_whitelisted_treasury t fuel global restricted f sender coins m f' ps :
  lists_ok t ->
  funds_execute (mk_foracle (treasury_whitelist t fuel global) restricted) f sender coins m = Ok (f', ps) ->
  forall a A, In (a, A) (handed_over f (mk_fcall (mk_foracle (treasury_whitelist t fuel global) restricted) sender coins m)) ->
  listed t a \/ In a global.
Proof.
  intros Hl H a A Hin. rewrite <- all_assets_In.
  apply (only_whitelisted (mk_foracle (treasury_whitelist t fuel global) restricted) f sender coins m f' ps (all_assets t) 30 ltac:(lia)
    (query_pages t None Hl) H a A Hin).
Qed.

Lemma whitelisted_accepted_treasury t W fuel global restricted f sender coins m :
  lists_ok t -> NoDup W -> (forall a, In a W <-> listed t a) -> (length W <= fuel)%nat ->
  (m = FDistributeNative \/ exists x, m = FReceive x true) ->
  let assets := match m with FDistributeNative => map (fun c : coin => Native (fst c)) coins | _ => [Cw20 sender] end in
  funds_execute (mk_foracle (treasury_whitelist t fuel global) restricted) f sender coins m = Err EAssetNotWhitelisted <->
  ~ (forall a, In a assets -> listed t a \/ In a global).
Proof.
  intros Hl Hnd HW Hf Hm assets.
  assert (HP : Permutation W (all_assets t)).
  { apply NoDup_Permutation; [exact Hnd|apply all_assets_NoDup|]. intros a. rewrite HW, all_assets_In. reflexivity. }
  rewrite (Permutation_length HP) in Hf.
  pose proof (whitelisted_accepted (mk_foracle (treasury_whitelist t fuel global) restricted) f sender coins m (all_assets t) 30
    ltac:(lia) (query_pages t None Hl) Hf Hm) as H. fold assets in H. cbn [fo_wl wl_global treasury_whitelist] in H.
  rewrite H. split; intros Hn Ha; apply Hn; intros a Hin; specialize (Ha a Hin); [rewrite all_assets_In in *|rewrite <- all_assets_In]; exact Ha.
Qed.
