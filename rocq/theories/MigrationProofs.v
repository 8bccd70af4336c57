(** Lemmas about the migration of an old DAO's stakes and claims. *)
From Verif Require Import Base OMap OMapLemmas Assets FundsModel FundsProofs MemberModel Msgs TreasuryModel TreasurySpec TreasuryProofs.

Lemma M32_pos : 0 < M32. Proof. reflexivity. Qed.
Local Opaque M32.

(** ** Removing and replacing entries at the front of a map *)

Lemma ldel_mid {V} (pre post : list (N * V)) k v :
  sortedb (pre ++ (k, v) :: post) = true -> ldel (pre ++ (k, v) :: post) k = pre ++ post.
Proof.
  induction pre as [|[a b] t IH]; intros H; cbn [app ldel].
  - rewrite N.eqb_refl. reflexivity.
  - cbn [app] in H. assert (Hlt : a < k).
    { eapply sortedb_gt; [exact H|]. apply in_or_app. right. left. reflexivity. }
    destruct (k =? a) eqn:E; [apply N.eqb_eq in E; lia|]. f_equal. apply IH. eapply sortedb_tail. exact H.
Qed.

Lemma lset_mid {V} (pre post : list (N * V)) k v w :
  sortedb (pre ++ (k, v) :: post) = true -> lset (pre ++ (k, v) :: post) k w = pre ++ (k, w) :: post.
Proof.
  induction pre as [|[a b] t IH]; intros H; cbn [app lset].
  - rewrite N.eqb_refl. reflexivity.
  - cbn [app] in H. assert (Hlt : a < k).
    { eapply sortedb_gt; [exact H|]. apply in_or_app. right. left. reflexivity. }
    destruct (k =? a) eqn:E; [apply N.eqb_eq in E; lia|].
    destruct (k <? a) eqn:E2; [apply N.ltb_lt in E2; lia|]. f_equal. apply IH. eapply sortedb_tail. exact H.
Qed.

Lemma odel_mid {V} (m : omap V) pre post k v : elems m = pre ++ (k, v) :: post -> elems (odel m k) = pre ++ post.
Proof. intros H. unfold odel. cbn [elems]. rewrite H. apply ldel_mid with (v := v). rewrite <- H. apply elems_sorted. Qed.

Lemma oset_mid {V} (m : omap V) pre post k v w :
  elems m = pre ++ (k, v) :: post -> elems (oset m k w) = pre ++ (k, w) :: post.
Proof. intros H. unfold oset. cbn [elems]. rewrite H. apply lset_mid. rewrite <- H. apply elems_sorted. Qed.

Lemma odel_front {V} (batch post : list (N * V)) : forall m, elems m = batch ++ post ->
  elems (fold_left (fun m (x : N * V) => odel m (fst x)) batch m) = post.
Proof.
  induction batch as [|[k v] t IH]; intros m H; cbn [fold_left]; [exact H|].
  apply IH. apply (odel_mid m [] _ k v). exact H.
Qed.

Lemma odel_take {V} (m : omap V) n :
  elems (fold_left (fun m (x : N * V) => odel m (fst x)) (take n (elems m)) m) = skipn (N.to_nat n) (elems m).
Proof. apply odel_front. unfold take. symmetry. apply firstn_skipn. Qed.

Definition keep (x : N * list old_claim) : bool := match snd x with [] => false | _ => true end.

Lemma replace_elems reps : forall olds m pre post,
  elems m = pre ++ olds ++ post -> map fst reps = map fst olds ->
  elems (fold_left replace_claims reps m) = pre ++ filter keep reps ++ post.
Proof.
  induction reps as [|[u cl] t IH]; intros olds m pre post H Hk; destruct olds as [|[u' old] olds]; try discriminate; cbn [fold_left].
  - exact H.
  - cbn [map fst] in Hk. inversion Hk; subst u'. unfold replace_claims at 2. cbn [snd fst filter keep].
    unfold keep at 1. cbn [snd]. destruct cl as [|c cl].
    + apply (IH olds); [|assumption]. apply (odel_mid m pre _ u old). exact H.
    + pose proof (oset_mid m pre _ u old (c :: cl) H) as Hs.
      rewrite (IH olds _ (pre ++ [(u, c :: cl)]) post); [|rewrite <- app_assoc; exact Hs|assumption].
      rewrite <- app_assoc. reflexivity.
Qed.

Lemma keep_token l : token_claims (filter keep l) = token_claims l.
Proof.
  induction l as [|[u c] t IH]; [reflexivity|]. cbn [filter]. unfold keep at 1. cbn [snd].
  destruct c as [|c l']; [exact IH|]. cbn [token_claims flat_map]. f_equal. exact IH.
Qed.
Lemma keep_nft l : nft_claims (filter keep l) = nft_claims l.
Proof.
  induction l as [|[u c] t IH]; [reflexivity|]. cbn [filter]. unfold keep at 1. cbn [snd].
  destruct c as [|c l']; [exact IH|]. cbn [nft_claims flat_map]. f_equal. exact IH.
Qed.

Lemma token_claims_app a b : token_claims (a ++ b) = token_claims a ++ token_claims b.
Proof. apply flat_map_app. Qed.
Lemma nft_claims_app a b : nft_claims (a ++ b) = nft_claims a ++ nft_claims b.
Proof. apply flat_map_app. Qed.

(** ** Token claims *)

Definition grows (limit : N) (acc acc' : claims_acc) (moved : list (N * N * release_at)) : Prop :=
  ca_sent acc' = ca_sent acc ++ moved /\
  ca_total acc' = ca_total acc + lsum claim_amount moved /\
  ca_included acc' = ca_included acc + N.of_nat (length moved) /\
  (ca_included acc <= limit -> ca_included acc' <= limit) /\
  (ca_total acc < M128 -> ca_total acc' < M128).

Lemma grows_refl limit acc : grows limit acc acc [].
Proof. repeat split; cbn; try (rewrite app_nil_r); try lia; try reflexivity. Qed.

Lemma grows_trans limit a b c m1 m2 : grows limit a b m1 -> grows limit b c m2 -> grows limit a c (m1 ++ m2).
Proof.
  intros (A1 & A2 & A3 & A4 & A5) (B1 & B2 & B3 & B4 & B5). repeat split.
  - rewrite B1, A1, app_assoc. reflexivity.
  - rewrite lsum_app. lia.
  - rewrite app_length. lia.
  - auto.
  - auto.
Qed.

Lemma u32_add_small a b : a + b < M32 -> u32_add a b = a + b.
Proof. intros H. unfold u32_add. apply N.mod_small. exact H. Qed.

Lemma include_claims_ok limit user claims : limit < M32 -> forall acc rem acc' rem',
  fold_res (include_claim limit user) (acc, rem) claims = Ok (acc', rem') ->
  exists moved rest, rem' = rem ++ rest /\ grows limit acc acc' moved /\
    user_claims (user, claims) = moved ++ user_claims (user, rest) /\
    user_nft_claims (user, rest) = user_nft_claims (user, claims) /\
    (user_claims (user, rest) <> [] -> limit <= ca_included acc') /\
    (limit <= ca_included acc -> moved = [] /\ rest = claims).
Proof.
  intros Hl. induction claims as [|c t IH]; intros acc rem acc' rem' H; cbn [fold_res] in H.
  - clean. exists [], []. rewrite app_nil_r. split; [reflexivity|]. split; [apply grows_refl|]. cbn. repeat split; try contradiction; try reflexivity.
  - apply bind_ok in H. destruct H as ([acc1 rem1] & H1 & H). apply IH in H. clear IH.
    destruct H as (moved & rest & -> & Hg & Hu & Hn & Hlim & Hstay).
    unfold include_claim in H1. cbn [fst snd] in H1. destruct c as [[n|l] r]; cbn [oc_asset oc_release] in H1.
    + destruct (ca_included acc <? limit) eqn:E.
      * apply N.ltb_lt in E. apply bind_ok in H1. destruct H1 as (tot & H2 & H1). clean.
        exists ((user, n, r) :: moved), rest. split; [reflexivity|]. rewrite u32_add_small in * by lia.
        split.
        { change ((user, n, r) :: moved) with ([(user, n, r)] ++ moved). eapply grows_trans; [|exact Hg].
          repeat split; cbn [ca_sent ca_total ca_included lsum fold_right claim_amount fst snd length]; lia. }
        split; [unfold user_claims in *; cbn [flat_map snd fst oc_asset oc_release app]; cbn [snd fst] in Hu; rewrite Hu; reflexivity|].
        split; [unfold user_nft_claims in *; cbn [flat_map snd fst oc_asset oc_release app]; exact Hn|].
        split; [exact Hlim|]. intros. lia.
      * apply N.ltb_ge in E. clean. destruct (Hstay E) as [-> ->].
        exists [], (mk_old_claim (LCw20 n) r :: t). rewrite <- app_assoc. split; [reflexivity|]. split; [exact Hg|].
        split; [reflexivity|]. split; [reflexivity|]. split; [|auto].
        intros _. destruct Hg as (_ & _ & Hi & _). cbn in Hi. lia.
    + clean. exists moved, (mk_old_claim (LCw721 l) r :: rest). rewrite <- app_assoc. split; [reflexivity|]. split; [exact Hg|].
      split; [exact Hu|]. split.
      { unfold user_nft_claims in *. cbn [flat_map snd fst oc_asset oc_release app]. cbn [snd fst] in Hn. rewrite Hn. reflexivity. }
      split; [exact Hlim|]. intros E. destruct (Hstay E) as [-> ->]. auto.
Qed.

Lemma include_users_ok limit : limit < M32 -> forall users acc acc' reps,
  include_users limit acc users = Ok (acc', reps) ->
  exists j moved, (j <= length users)%nat /\ map fst reps = map fst (firstn j users) /\ grows limit acc acc' moved /\
    token_claims (firstn j users) = moved ++ token_claims reps /\
    nft_claims reps = nft_claims (firstn j users) /\
    (token_claims reps <> [] -> limit <= ca_included acc') /\
    ((j < length users)%nat -> limit <= ca_included acc') /\
    (limit <= ca_included acc -> moved = [] /\ reps = []).
Proof.
  intros Hl. induction users as [|[user claims] t IH]; intros acc acc' reps H; cbn [include_users] in H.
  - clean. exists O, []. cbn. split; [lia|]. split; [reflexivity|]. split; [apply grows_refl|]. repeat split; try contradiction; try lia.
  - destruct (limit <=? ca_included acc) eqn:E.
    + apply N.leb_le in E. clean. exists O, []. cbn [firstn map token_claims nft_claims flat_map]. split; [lia|].
      split; [reflexivity|]. split; [apply grows_refl|]. repeat split; try contradiction; auto.
    + apply N.leb_gt in E. apply bind_ok in H. destruct H as ([acc1 rem] & H1 & H). cbn [fst snd] in H.
      apply bind_ok in H. destruct H as ([acc2 reps2] & H2 & H). cbn [fst snd] in H. clean.
      apply (include_claims_ok limit user claims Hl) in H1. destruct H1 as (m1 & rest & -> & G1 & U1 & N1 & L1 & _).
      apply IH in H2. destruct H2 as (j & m2 & Hj & Hk & G2 & U2 & N2 & L2 & B2 & S2). unfold addr in *.
      exists (S j), (m1 ++ m2). cbn [app length firstn map fst]. split; [lia|]. split; [f_equal; exact Hk|].
      split; [eapply grows_trans; eassumption|].
      assert (Hrest : user_claims (user, rest) <> [] -> m2 = [] /\ reps2 = [] /\ limit <= ca_included acc').
      { intros Hne. specialize (L1 Hne). destruct (S2 L1) as [-> ->]. repeat split.
        destruct G2 as (_ & _ & G & _). lia. }
      split.
      { cbn [token_claims flat_map]. fold (token_claims (firstn j t)). fold (token_claims reps2). rewrite U1, U2.
        destruct (user_claims (user, rest)) as [|x l] eqn:Er.
        - cbn [app]. rewrite app_nil_r, app_assoc. reflexivity.
        - destruct (Hrest ltac:(discriminate)) as (-> & -> & _). cbn [app token_claims flat_map]. rewrite !app_nil_r. reflexivity. }
      split; [cbn [nft_claims flat_map]; fold (nft_claims (firstn j t)); fold (nft_claims reps2); rewrite N1, N2; reflexivity|].
      split.
      { cbn [token_claims flat_map]. intros Hne. destruct (user_claims (user, rest)) as [|x l] eqn:Er.
        - apply L2. cbn [app] in Hne. exact Hne.
        - apply Hrest. discriminate. }
      split; [intros Hlt; apply B2; lia|]. intros. lia.
Qed.

Lemma claims_loop_ok limit : limit < M32 -> forall gas m acc m' acc',
  claims_loop gas limit m acc = Ok (m', acc') ->
  exists moved, grows limit acc acc' moved /\
    token_claims (elems m) = moved ++ token_claims (elems m') /\
    nft_claims (elems m') = nft_claims (elems m) /\
    (ca_included acc' < limit -> elems m' = []).
Proof.
  intros Hl. induction gas as [|gas IH]; intros m acc m' acc' H; cbn [claims_loop] in H.
  - destruct ((ca_included acc <? limit) && negb match elems m with [] => true | _ => false end) eqn:E; [discriminate|].
    clean. exists []. split; [apply grows_refl|]. split; [reflexivity|]. split; [reflexivity|].
    intros Hlt. destruct (elems m'); [reflexivity|]. cbn in E. lia.
  - destruct ((ca_included acc <? limit) && negb match elems m with [] => true | _ => false end) eqn:E.
    + apply bind_ok in H. destruct H as ([acc1 reps] & H1 & H). cbn [fst snd] in H. apply IH in H.
      destruct H as (m2 & G2 & U2 & N2 & E2).
      apply (include_users_ok limit Hl) in H1. destruct H1 as (j & m1 & Hj & Hk & G1 & U1 & N1 & _).
      set (window := take limit (elems m)) in *.
      assert (Hm : elems m = firstn j window ++ (skipn j window ++ skipn (N.to_nat limit) (elems m))).
      { rewrite app_assoc, firstn_skipn. unfold window, take. symmetry. apply firstn_skipn. }
      pose proof (replace_elems reps (firstn j window) m [] _ Hm Hk) as Hr. cbn [app] in Hr.
      exists (m1 ++ m2). split; [eapply grows_trans; eassumption|].
      split.
      { rewrite Hm, token_claims_app, U1. rewrite <- !app_assoc. f_equal. rewrite Hr, token_claims_app, keep_token in U2. exact U2. }
      split; [|exact E2].
      rewrite N2, Hr, nft_claims_app, keep_nft, N1. rewrite <- nft_claims_app, <- Hm. reflexivity.
    + clean. exists []. split; [apply grows_refl|]. split; [reflexivity|]. split; [reflexivity|].
      intros Hlt. destruct (elems m'); [reflexivity|]. cbn in E. lia.
Qed.

Lemma grows_count limit acc acc' moved : grows limit acc acc' moved -> ca_included acc <= limit ->
  ca_included acc + N.of_nat (length moved) <= limit.
Proof. intros (_ & _ & H & Hl & _) H0. specialize (Hl H0). lia. Qed.


Lemma include_claims_some limit user claims : (forall c, In c claims -> exists n, oc_asset c = LCw20 n) -> forall acc rem,
  ca_total acc + lsum claim_amount (user_claims (user, claims)) < M128 ->
  exists r, fold_res (include_claim limit user) (acc, rem) claims = Ok r.
Proof.
  induction claims as [|c t IH]; intros Ht acc rem Hs; cbn [fold_res]; [eauto|].
  destruct (Ht c (or_introl eq_refl)) as (n & Hn). destruct c as [ca r]. cbn [oc_asset] in Hn. subst ca.
  unfold include_claim at 1. cbn [fst snd oc_asset oc_release].
  unfold user_claims in Hs. cbn [snd fst flat_map oc_asset oc_release app] in Hs. rewrite lsum_cons in Hs. cbn [claim_amount fst snd] in Hs.
  fold (user_claims (user, t)) in Hs. change (flat_map _ t) with (user_claims (user, t)) in Hs.
  assert (Ht' : forall c, In c t -> exists n, oc_asset c = LCw20 n) by (intros; apply Ht; right; assumption).
  destruct (ca_included acc <? limit).
  - unfold uint_add. destruct (ca_total acc + n <? M128) eqn:E; [|lia]. cbn [bind]. apply IH; [assumption|]. cbn [ca_total]. lia.
  - apply IH; [assumption|]. lia.
Qed.

Lemma include_users_some limit : limit < M32 -> forall users acc, token_only users ->
  ca_total acc + lsum claim_amount (token_claims users) < M128 ->
  exists r, include_users limit acc users = Ok r.
Proof.
  intros Hl. induction users as [|[u cs] t IH]; intros acc Ht Hs; cbn [include_users]; [eauto|].
  destruct (limit <=? ca_included acc); [eauto|].
  cbn [token_claims flat_map] in Hs. fold (token_claims t) in Hs. rewrite lsum_app in Hs.
  destruct (include_claims_some limit u cs (fun c Hc => Ht u cs c (or_introl eq_refl) Hc) acc []) as ([acc1 rem] & H1); [lia|].
  rewrite H1. cbn [bind fst snd].
  apply (include_claims_ok limit u cs Hl) in H1. destruct H1 as (m1 & rest & _ & (_ & Ht1 & _) & U1 & _).
  destruct (IH acc1) as (r & Hr).
  - intros u' cs' c Hin Hc. eapply Ht; [right; eassumption|eassumption].
  - unfold addr in *. rewrite U1, lsum_app in Hs. lia.
  - rewrite Hr. cbn [bind]. eauto.
Qed.

Lemma token_only_no_nft l : token_only l -> nft_claims l = [].
Proof.
  induction l as [|[u cs] t IH]; intros H; [reflexivity|]. cbn [nft_claims flat_map]. fold (nft_claims t). rewrite IH.
  - rewrite app_nil_r. unfold user_nft_claims. cbn [snd fst].
    assert (Hc : forall c, In c cs -> exists n, oc_asset c = LCw20 n) by (intros; eapply H; [left; reflexivity|assumption]).
    clear -Hc. induction cs as [|c cs IH]; [reflexivity|]. cbn [flat_map].
    destruct (Hc c (or_introl eq_refl)) as (n & ->). apply IH. intros; apply Hc; right; assumption.
  - intros u' cs' c Hin Hc. eapply H; [right; eassumption|eassumption].
Qed.

(** What remains of a user's claims is a part of them. *)
Lemma include_claims_sub limit user claims : forall acc rem acc' rem',
  fold_res (include_claim limit user) (acc, rem) claims = Ok (acc', rem') -> forall c, In c rem' -> In c rem \/ In c claims.
Proof.
  induction claims as [|c t IH]; intros acc rem acc' rem' H; cbn [fold_res] in H; [clean; auto|].
  apply bind_ok in H. destruct H as ([acc1 rem1] & H1 & H). intros x Hx. apply (IH _ _ _ _ H) in Hx.
  destruct Hx as [Hx|Hx]; [|right; right; exact Hx].
  unfold include_claim in H1. cbn [fst snd] in H1. destruct (oc_asset c).
  - destruct (ca_included acc <? limit).
    + binv H1. clean. auto.
    + clean. apply in_app_iff in Hx. destruct Hx as [Hx|[Hx|[]]]; [auto|subst; right; left; reflexivity].
  - clean. apply in_app_iff in Hx. destruct Hx as [Hx|[Hx|[]]]; [auto|subst; right; left; reflexivity].
Qed.

Lemma include_users_sub limit : forall users acc acc' reps, include_users limit acc users = Ok (acc', reps) ->
  forall u cs c, In (u, cs) reps -> In c cs -> exists cs', In (u, cs') users /\ In c cs'.
Proof.
  induction users as [|[user claims] t IH]; intros acc acc' reps H; cbn [include_users] in H; [clean; contradiction|].
  destruct (limit <=? ca_included acc); [clean; contradiction|].
  apply bind_ok in H. destruct H as ([acc1 rem] & H1 & H). cbn [fst snd] in H.
  apply bind_ok in H. destruct H as ([acc2 reps2] & H2 & H). cbn [fst snd] in H. clean.
  intros u cs c [Hin|Hin] Hc.
  - inversion Hin; subst. exists claims. split; [left; reflexivity|].
    destruct (include_claims_sub _ _ _ _ _ _ _ H1 c Hc) as [[]|Hx]. exact Hx.
  - destruct (IH _ _ _ H2 u cs c Hin Hc) as (cs' & A & B). exists cs'. split; [right; exact A|exact B].
Qed.

(** A pass over token claims that does not reach the limit empties its window. *)
Lemma include_users_all limit : limit < M32 -> forall users acc acc' reps, token_only users ->
  include_users limit acc users = Ok (acc', reps) -> ca_included acc' < limit -> filter keep reps = [] /\ map fst reps = map fst users.
Proof.
  intros Hl users acc acc' reps Ht H Hlt. pose proof (include_users_sub _ _ _ _ _ H) as Hsub.
  apply (include_users_ok limit Hl) in H. destruct H as (j & moved & Hj & Hk & _ & _ & _ & L & B & _).
  split.
  - apply filter_none. intros [u cs] Hin. unfold keep. cbn [snd]. destruct cs as [|c cs]; [reflexivity|].
    exfalso. assert (Hne : token_claims reps <> []).
    { apply in_split in Hin. destruct Hin as (l1 & l2 & ->). rewrite token_claims_app. cbn [token_claims flat_map].
      destruct (Hsub u (c :: cs) c ltac:(apply in_or_app; right; left; reflexivity) (or_introl eq_refl)) as (cs' & Hin' & Hc').
      destruct (Ht u cs' c Hin' Hc') as (n & Hn). unfold user_claims at 1. cbn [snd fst flat_map]. rewrite Hn. cbn [app].
      destruct (token_claims l1); discriminate. }
    apply L in Hne. lia.
  - rewrite Hk. f_equal. apply firstn_all2. destruct (Nat.lt_ge_cases j (length users)) as [H|H]; [|exact H]. apply B in H. lia.
Qed.

Lemma claims_loop_some limit : limit < M32 -> forall gas m acc, token_only (elems m) -> (length (elems m) <= gas)%nat ->
  ca_total acc + lsum claim_amount (token_claims (elems m)) < M128 ->
  exists r, claims_loop gas limit m acc = Ok r.
Proof.
  intros Hl. induction gas as [|gas IH]; intros m acc Ht Hg Hs; cbn [claims_loop].
  - destruct (elems m) eqn:E; [|cbn in Hg; lia]. rewrite andb_false_r. eauto.
  - destruct ((ca_included acc <? limit) && negb match elems m with [] => true | _ => false end) eqn:E; [|eauto].
    set (window := take limit (elems m)).
    assert (Hm : elems m = window ++ skipn (N.to_nat limit) (elems m)) by (symmetry; apply firstn_skipn).
    assert (Hw : token_only window).
    { intros u cs c Hin Hc. eapply Ht; [rewrite Hm; apply in_or_app; left; eassumption|eassumption]. }
    destruct (include_users_some limit Hl window acc Hw) as ([acc1 reps] & H1).
    { rewrite Hm, token_claims_app, lsum_app in Hs. lia. }
    rewrite H1. cbn [bind fst snd].
    destruct (ca_included acc1 <? limit) eqn:E1.
    + apply N.ltb_lt in E1. destruct (include_users_all limit Hl window acc acc1 reps Hw H1 E1) as (Hf & Hk).
      pose proof (replace_elems reps window m [] _ Hm Hk) as Hr. cbn [app] in Hr. rewrite Hf in Hr. cbn [app] in Hr.
      apply (include_users_ok limit Hl) in H1. destruct H1 as (j & moved & _ & _ & (_ & Htot & _) & U1 & _ & L & B & _).
      apply IH.
      * intros u cs c Hin Hc. rewrite Hr in Hin. eapply Ht; [rewrite Hm; apply in_or_app; right; eassumption|eassumption].
      * rewrite Hr, skipn_length. destruct (elems m) as [|x l]; [cbn in E; lia|]. cbn [length] in *. lia.
      * rewrite Hr. rewrite Hm, token_claims_app, lsum_app in Hs.
        assert (Hj : (length window <= j)%nat) by (destruct (Nat.lt_ge_cases j (length window)) as [H|H]; [apply B in H; lia|exact H]).
        rewrite firstn_all2 in U1 by exact Hj. rewrite U1, lsum_app in Hs. lia.
    + destruct gas; cbn [claims_loop]; rewrite E1; cbn [andb]; eauto.
Qed.

(** NFT claims in a token DAO's table keep the loop from ever ending, unless the limit is reached. *)
Lemma claims_loop_stuck limit : limit < M32 -> forall gas m acc, nft_claims (elems m) <> [] ->
  ca_included acc + N.of_nat (length (token_claims (elems m))) < limit -> forall r, claims_loop gas limit m acc <> Ok r.
Proof.
  intros Hl gas m acc Hn Hc [m' acc'] H. apply (claims_loop_ok limit Hl) in H.
  destruct H as (moved & (_ & _ & Hi & _) & Hu & Hn' & He).
  rewrite Hu, app_length in Hc. rewrite <- Hn', He in Hn by lia. apply Hn. reflexivity.
Qed.

(** ** NFT claims *)

Lemma nft_claim_msgs_map c ms l :
  flat_map (nft_claim_msgs c ms) l =
  map (fun x : N * N * release_at => send_nft c ms (snd (fst x)) (NAddClaim (fst (fst x)) (snd x))) (nft_claims l).
Proof.
  induction l as [|[u cs] t IH]; [reflexivity|]. cbn [flat_map nft_claims]. fold (nft_claims t). rewrite IH, map_app. f_equal.
  unfold nft_claim_msgs, user_nft_claims. cbn [fst snd]. clear. induction cs as [|[ca r] cs IH]; [reflexivity|].
  cbn [flat_map oc_asset oc_release]. rewrite map_app, IH. f_equal. destruct ca; cbn [map]; [reflexivity|]. rewrite map_map. reflexivity.
Qed.

Lemma nft_claims_loop_ok c ms limit : forall gas m k msgs m' msgs',
  nft_claims_loop gas c ms limit m k msgs = Ok (m', msgs') ->
  k + N.of_nat (length (nft_claims (elems m))) < M32 ->
  exists j, (j <= length (elems m))%nat /\ elems m' = skipn j (elems m) /\
    msgs' = msgs ++ flat_map (nft_claim_msgs c ms) (firstn j (elems m)) /\
    (k + N.of_nat (length (nft_claims (firstn j (elems m)))) < limit -> elems m' = []).
Proof.
  induction gas as [|gas IH]; intros m k msgs m' msgs' H Hk; cbn [nft_claims_loop] in H.
  - destruct ((k <? limit) && negb match elems m with [] => true | _ => false end) eqn:E; [discriminate|].
    clean. exists O. split; [lia|]. cbn [skipn firstn flat_map nft_claims length]. rewrite app_nil_r. repeat split.
    intros Hlt. destruct (elems m'); [reflexivity|]. cbn in E. lia.
  - destruct ((k <? limit) && negb match elems m with [] => true | _ => false end) eqn:E.
    + set (window := take limit (elems m)) in *. set (m1 := fold_left _ window m) in *.
      assert (Hm1 : elems m1 = skipn (N.to_nat limit) (elems m)) by apply odel_take.
      rewrite nft_claim_msgs_map, map_length in H. rewrite <- nft_claim_msgs_map in H.
      assert (Hm : elems m = window ++ elems m1) by (rewrite Hm1; symmetry; apply firstn_skipn).
      assert (Hc : nft_claims (elems m) = nft_claims window ++ nft_claims (elems m1)) by (rewrite Hm at 1; apply nft_claims_app).
      rewrite Hc, app_length in Hk. rewrite u32_add_small in H by lia.
      apply IH in H; [|lia]. destruct H as (j & Hj & He & Hms & Hend).
      exists (length window + j)%nat. split; [rewrite Hm, app_length; lia|].
      assert (Hf : firstn (length window + j) (elems m) = window ++ firstn j (elems m1)).
      { rewrite Hm. rewrite firstn_app_2. reflexivity. }
      split; [rewrite He, Hm at 1; rewrite skipn_plus; reflexivity|].
      rewrite Hf. split; [rewrite Hms, flat_map_app, app_assoc; reflexivity|].
      rewrite nft_claims_app, app_length. intros Hlt. apply Hend. lia.
    + clean. exists O. split; [lia|]. cbn [skipn firstn flat_map nft_claims length]. rewrite app_nil_r. repeat split.
      intros Hlt. destruct (elems m'); [reflexivity|]. cbn in E. lia.
Qed.

Lemma nft_claims_loop_some c ms limit : forall gas m k msgs, (length (elems m) <= gas)%nat ->
  exists r, nft_claims_loop gas c ms limit m k msgs = Ok r.
Proof.
  induction gas as [|gas IH]; intros m k msgs Hg; cbn [nft_claims_loop].
  - destruct (elems m) eqn:E; [|cbn in Hg; lia]. rewrite andb_false_r. eauto.
  - destruct ((k <? limit) && negb match elems m with [] => true | _ => false end) eqn:E; [|eauto].
    apply IH. rewrite odel_take, skipn_length. destruct (elems m) as [|x l]; [cbn in E; lia|]. cbn [length] in *. lia.
Qed.
