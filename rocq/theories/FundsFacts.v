(** The reward properties, proved in the form in which [PropFunds] states them. *)
From Verif Require Import Base OMap OMapLemmas Assets FundsModel FundsSpec FundsProofs.

Definition amount (f : funds) (u : N) (a : asset) : N :=
  match a with Native d => namt f u d | Cw20 c => camt f u c | Cw1155 _ _ => 0 end.

Lemma side_claimable f r u a : side_ok r (f_eff f) ->
  claimable_side f r u a = let x := amt r (ogetN (f_eff f) u) u a in if x <? M128 then Ok x else Err EOverflow.
Proof.
  intros (Hi & _ & _). cbv zeta. unfold claimable_side. fold (glob r a).
  destruct (amt r (ogetN (f_eff f) u) u a <? M128) eqn:E.
  - apply user_reward_defined; [reflexivity|apply Hi|lia].
  - specialize (Hi u a). unfold user_reward, new_user_reward, amt, idx, pend in *.
    destruct (get_dist r u a) as [d|]; unfold uint_csub, uint_cadd.
    + replace (d_index d <=? glob r a) with true by lia. cbn [bind]. set (q := _ / _) in *.
      destruct (q <? M128); cbn [guard bind]; [|reflexivity]. replace (q + d_pending d <? M128) with false by lia. reflexivity.
    + replace (0 <=? glob r a) with true by lia. cbn [bind]. set (q := _ / _) in *.
      destruct (q <? M128); cbn [guard bind]; [|reflexivity]. replace (q + 0 <? M128) with false by lia. reflexivity.
Qed.

Lemma claimable_amount f u a : funds_ok f ->
  claimable f u a = if amount f u a <? M128 then Ok (amount f u a) else Err EOverflow.
Proof.
  intros (_ & _ & Hn & Hc). destruct a as [d|c|c i]; cbn [claimable amount].
  - apply side_claimable. exact Hn.
  - apply side_claimable. exact Hc.
  - reflexivity.
Qed.

Lemma claimable_ok f u a x : funds_ok f -> claimable f u a = Ok x -> x = amount f u a /\ amount f u a < M128.
Proof.
  intros H. rewrite (claimable_amount f u a H). destruct (_ <? _) eqn:E; intros H1; inversion H1; subst. split; lia.
Qed.

Lemma claimable_same f f' u a : funds_ok f -> funds_ok f' -> amount f' u a = amount f u a ->
  claimable f' u a = claimable f u a.
Proof. intros H H' E. rewrite !claimable_amount by assumption. rewrite E. reflexivity. Qed.

Lemma map_res_ok {A B} (g : A -> res B) l xs : map_res g l = Ok xs -> Forall2 (fun a x => g a = Ok x) l xs.
Proof.
  revert xs. induction l as [|a l IH]; intros xs H; cbn [map_res] in H.
  - inversion H. constructor.
  - binv H. clean. constructor; auto.
Qed.

Lemma map_res_intro {A B} (g : A -> res B) (h : A -> B) l : (forall a, In a l -> g a = Ok (h a)) -> map_res g l = Ok (map h l).
Proof.
  induction l as [|a l IH]; intros H; cbn [map_res map]; [reflexivity|].
  rewrite (H a (or_introl eq_refl)). cbn [bind]. rewrite IH; [reflexivity|]. intros; apply H; right; assumption.
Qed.

Lemma no_cw1155_paid b : reachable b -> forall a i, total_of (Cw1155 a i) (paid_amounts (b_paid b)) = 0.
Proof.
  intros (admin & ent & mn & l & f0 & cs & Hi & ->) a i. apply instantiate_ok in Hi. destruct Hi as (Hok & _).
  unfold books_run.
  apply (fold_left_inv (fun b => funds_ok (b_funds b) /\ total_of (Cw1155 a i) (paid_amounts (b_paid b)) = 0)).
  2: split; [exact Hok|reflexivity].
  intros b [o s coins m] [Hb Hz]. unfold books_step, funds_step. cbn [b_funds b_paid fc_oracle fc_sender fc_coins fc_msg].
  destruct (funds_execute o (b_funds b) s coins m) as [[f' ps]|] eqn:E; cbn [fst snd]; [|rewrite app_nil_r; auto].
  destruct (execute_balance _ _ _ _ _ _ _ Hb E) as (H1 & _). split; [exact H1|].
  rewrite paid_amounts_app, total_of_app, Hz, N.add_0_l.
  destruct m as [ch|mn'| |user ns cs'|amnt known]; cbn [funds_execute] in E; try (binv E; clean; reflexivity).
  - destruct (claim_ok _ _ _ _ _ _ _ _ Hb E) as (_ & _ & _ & _ & n & o1 & c & o2 & _ & _ & _ & ->).
    rewrite paid_amounts_app, total_of_app. unfold total_of, paid_amounts. rewrite !map_map, !lsum_filter, !lsum_map.
    rewrite !lsum_zero; [reflexivity| |]; intros [x y] _; reflexivity.
  - destruct known; [|discriminate]. binv E. clean. reflexivity.
Qed.

Lemma sum_amounts b a us : reachable b -> NoDup us ->
  total_of a (paid_amounts (b_paid b)) + lsum (fun u => amount (b_funds b) u a) us <= total_of a (b_distributed b).
Proof.
  intros Hr Hnd. destruct (reachable_solvent b Hr) as ((_ & _ & Hn & Hc) & H1 & H2). pose proof DEC_pos.
  destruct a as [d|c|c i]; cbn [amount].
  - pose proof (sum_amt_potential _ _ d us Hn Hnd). specialize (H1 d). unfold namt. nia.
  - pose proof (sum_amt_potential _ _ c us Hc Hnd). specialize (H2 c). unfold camt. nia.
  - rewrite (no_cw1155_paid b Hr), lsum_zero by auto. lia.
Qed.

(** C11 *)
Lemma solvency b a us xs : reachable b -> NoDup us ->
  map_res (fun u => claimable (b_funds b) u a) us = Ok xs ->
  total_of a (paid_amounts (b_paid b)) + lsum (fun x => x) xs <= total_of a (b_distributed b).
Proof.
  intros Hr Hnd H. pose proof (sum_amounts b a us Hr Hnd) as Hs.
  replace (lsum (fun x => x) xs) with (lsum (fun u => amount (b_funds b) u a) us); [exact Hs|].
  apply map_res_ok in H. destruct (reachable_solvent b Hr) as (Hok & _). clear Hs Hnd.
  induction H as [|u x us xs H _ IH]; [reflexivity|]. rewrite !lsum_cons, IH.
  apply claimable_ok in H; [|exact Hok]. destruct H as [-> _]. reflexivity.
Qed.

Lemma amount_lt b a u : reachable b -> total_of a (b_distributed b) < M128 -> amount (b_funds b) u a < M128.
Proof.
  intros Hr H. pose proof (sum_amounts b a [u] Hr) as Hs. rewrite lsum_cons in Hs. unfold lsum in Hs; cbn [fold_right] in Hs.
  assert (NoDup [u]) by (constructor; [auto|constructor]). specialize (Hs H0). lia.
Qed.

Lemma readable b a u : reachable b -> total_of a (b_distributed b) < 2 ^ 128 ->
  exists x, claimable (b_funds b) u a = Ok x.
Proof.
  intros Hr H. change (2 ^ 128) with M128 in H. pose proof (amount_lt b a u Hr H).
  destruct (reachable_solvent b Hr) as (Hok & _). rewrite (claimable_amount _ _ _ Hok).
  replace (_ <? _) with true by lia. eauto.
Qed.

(** C12 *)
Lemma share_arith w g0 i A T p : T <> 0 -> i = A * DEC / T ->
  let x0 := w * g0 / DEC + p in let x1 := w * (g0 + i) / DEC + p in
  x0 <= x1 /\ (x1 - x0) * T <= A * w + T /\ A * w * DEC < (x1 - x0) * T * DEC + w * T + T * DEC.
Proof.
  intros HT Hi. cbv zeta. pose proof DEC_pos as HD.
  pose proof (N.div_mod (A * DEC) T HT) as Ha. rewrite <- Hi in Ha. pose proof (N.mod_lt (A * DEC) T HT) as Hal.
  assert (HD0 : DEC <> 0) by lia.
  pose proof (N.div_mod (w * g0) DEC HD0) as H0. pose proof (N.mod_lt (w * g0) DEC HD0) as H0l.
  pose proof (N.div_mod (w * (g0 + i)) DEC HD0) as H1. pose proof (N.mod_lt (w * (g0 + i)) DEC HD0) as H1l.
  set (q0 := w * g0 / DEC) in *. set (m0 := (w * g0) mod DEC) in *.
  set (q1 := w * (g0 + i) / DEC) in *. set (m1 := (w * (g0 + i)) mod DEC) in *. set (ma := (A * DEC) mod T) in *.
  clearbody q0 m0 q1 m1 ma.
  assert (Hmul : w * (g0 + i) = w * g0 + w * i) by lia.
  assert (Hq : q0 <= q1) by nia.
  assert (He : exists k, q1 = q0 + k) by (exists (q1 - q0); lia). destruct He as [k ->].
  replace (q0 + k + p - (q0 + p)) with k by lia.
  assert (Hk : DEC * k + m1 = m0 + w * i) by nia.
  split; [lia|]. 
  assert (HwA : w * (A * DEC) = w * (T * i) + w * ma) by nia.
  split.
  - assert (T * (DEC * k) <= T * m0 + T * (w * i)) by nia.
    assert (T * (w * i) <= w * (A * DEC)) by nia.
    assert (T * m0 < T * DEC) by nia.
    assert (DEC * (T * k) < DEC * (A * w + T)) by nia. nia.
  - assert (w * ma <= w * T) by nia.
    assert (T * (w * i) <= T * (DEC * k) + T * m1) by nia. nia.
Qed.

Lemma lsum_pick (l : list (N * N)) a A (g : N -> N) : NoDup (map fst l) -> In (a, A) l ->
  lsum (fun p => if fst p =? a then g (snd p) else 0) l = g A.
Proof.
  induction l as [|[b B] l IH]; intros Hnd Hin; [destruct Hin|]. cbn [map fst] in Hnd. inversion Hnd as [|? ? Hni Hnd']; subst.
  rewrite lsum_cons. cbn [fst snd]. destruct Hin as [E|Hin].
  - inversion E; subst. rewrite N.eqb_refl, lsum_zero; [lia|]. intros [c C] Hc. cbn [fst snd].
    destruct (c =? a) eqn:E2; [|reflexivity]. exfalso. apply Hni. replace a with c by lia. change c with (fst (c, C)).
    apply in_map. exact Hc.
  - rewrite (IH Hnd' Hin). replace (b =? a) with false; [reflexivity|]. symmetry. apply N.eqb_neq. intros ->.
    apply Hni. change a with (fst (a, A)). apply in_map. exact Hin.
Qed.

Lemma side_share T eff r r' l a A u : T = wsum eff -> T <> 0 -> side_ok r eff ->
  fold_res (distribute_one T) r l = Ok r' -> NoDup (map fst l) -> In (a, A) l ->
  let w := ogetN eff u in let x0 := amt r w u a in let x1 := amt r' w u a in
  x0 <= x1 /\ (x1 - x0) * T <= A * w + T /\ A * w * DEC < (x1 - x0) * T * DEC + w * T + T * DEC.
Proof.
  intros HT HT0 Hs Hf Hnd Hin. destruct (distribute_fold T eff l HT r r' Hs Hf) as (_ & Hd & _ & Hg & _).
  cbv zeta. destruct Hs as (Hi & _ & _). specialize (Hi u a). specialize (Hg a).
  rewrite (lsum_pick l a A (fun x => x * DEC / T) Hnd Hin) in Hg.
  destruct (idx_dist r r' u a (Hd u a)) as [H1 H2]. unfold amt. rewrite H1, H2, Hg.
  replace (glob r a + A * DEC / T - idx r u a) with (glob r a - idx r u a + A * DEC / T) by qlia.
  apply share_arith; auto.
Qed.

Lemma side_share_other T eff r r' l a u : T = wsum eff -> side_ok r eff ->
  fold_res (distribute_one T) r l = Ok r' -> ~ In a (map fst l) -> forall w, amt r' w u a = amt r w u a.
Proof.
  intros HT Hs Hf Hni w. destruct (distribute_fold T eff l HT r r' Hs Hf) as (_ & Hd & _ & Hg & _).
  destruct (idx_dist r r' u a (Hd u a)) as [H1 H2]. unfold amt. rewrite H1, H2, (Hg a), lsum_zero; [rewrite N.add_0_r; reflexivity|].
  intros [b B] Hb. cbn [fst snd]. destruct (b =? a) eqn:E; [|reflexivity]. exfalso. apply Hni. replace a with b by lia.
  change b with (fst (b, B)). apply in_map. exact Hb.
Qed.

Lemma NoDup_map_inj {A B} (f : A -> B) l : NoDup (map f l) -> NoDup l.
Proof. apply NoDup_map_inv. Qed.

(** The two shapes of an accepted distribution. *)
Lemma handed_cases o f sender coins m f' ps : funds_ok f ->
  funds_execute o f sender coins m = Ok (f', ps) ->
  let l := handed_over f (mk_fcall o sender coins m) in
  (exists n, m = FDistributeNative /\ f' = with_rewards f n (f_cw20 f) /\ f_total f <> 0 /\
     fold_res (distribute_one (f_total f)) (f_native f) coins = Ok n /\ l = map (fun x => (Native (fst x), snd x)) coins) \/
  (exists c x, m = FReceive x true /\ f' = with_rewards f (f_native f) c /\ f_total f <> 0 /\
     fold_res (distribute_one (f_total f)) (f_cw20 f) [(sender, x)] = Ok c /\ l = [(Cw20 sender, x)]) \/
  (l = [] /\ m <> FDistributeNative /\ forall x k, m <> FReceive x k).
Proof.
  intros Hok H. cbv zeta. unfold handed_over. cbn [fc_oracle fc_sender fc_coins fc_msg]. rewrite H.
  destruct m as [ch|mn| |user ns cs|x known]; cbn [funds_execute] in H;
    try (right; right; repeat split; try discriminate; fail).
  - left. binv H. clean. destruct (distribute_native_ok _ _ _ _ Hok Hb) as (HT & n & -> & Hf). exists n. auto.
  - right. left. destruct known; [|discriminate]. binv H. clean.
    destruct (distribute_cw20_ok _ _ _ _ _ Hok Hb) as (HT & c & -> & Hf). exists c, x. auto.
Qed.

Lemma share b o sender coins m f' ps a A u x0 x1 :
  reachable b -> let f := b_funds b in
  funds_execute o f sender coins m = Ok (f', ps) ->
  let given := handed_over f (mk_fcall o sender coins m) in
  NoDup (map fst given) -> In (a, A) given ->
  claimable f u a = Ok x0 -> claimable f' u a = Ok x1 ->
  let w := ogetN (f_eff f) u in let T := f_total f in
  x0 <= x1 /\ (x1 - x0) * T <= A * w + T /\ A * w * DEC < (x1 - x0) * T * DEC + w * T + T * DEC.
Proof.
  intros Hr f H given Hnd Hin H0 H1. destruct (reachable_solvent b Hr) as (Hok & _). fold f in Hok.
  destruct (execute_balance _ _ _ _ _ _ _ Hok H) as (Hok' & _).
  apply claimable_ok in H0; [|exact Hok]. apply claimable_ok in H1; [|exact Hok']. destruct H0 as [-> _], H1 as [-> _].
  assert (Hok2 := Hok). destruct Hok2 as (HT & _ & Hn & Hc).
  destruct (handed_cases _ _ _ _ _ _ _ Hok H) as [(n & -> & -> & HT0 & Hf & Hg)|[(c & x & -> & -> & HT0 & Hf & Hg)|[Hg _]]];
    fold given in Hg; rewrite Hg in Hnd, Hin; clear given Hg.
  - apply in_map_iff in Hin. destruct Hin as [[d A'] [E Hin]]. inversion E; subst a A'. cbn [fst snd] in *.
    assert (Hnd2 : NoDup (map fst coins)).
    { rewrite map_map in Hnd. cbn [fst] in Hnd. apply (NoDup_map_inv (fun d => Native d)). rewrite map_map. exact Hnd. }
    cbn [amount]. unfold namt. cbn [f_native f_eff with_rewards].
    exact (side_share _ _ _ _ _ _ _ u HT HT0 Hn Hf Hnd2 Hin).
  - destruct Hin as [E|[]]. inversion E; subst a A. cbn [amount]. unfold camt. cbn [f_cw20 f_eff with_rewards].
    apply (side_share _ _ _ _ [(sender, x)] sender x u HT HT0 Hc Hf); [|left; reflexivity].
    constructor; [auto|constructor].
  - destruct Hin.
Qed.

Lemma share_others b o sender coins m f' ps a u :
  reachable b -> let f := b_funds b in
  (m = FDistributeNative \/ exists x k, m = FReceive x k) ->
  funds_execute o f sender coins m = Ok (f', ps) ->
  ~ In a (map fst (handed_over f (mk_fcall o sender coins m))) ->
  claimable f' u a = claimable f u a /\ ps = [].
Proof.
  intros Hr f Hm H Hni. destruct (reachable_solvent b Hr) as (Hok & _). fold f in Hok.
  destruct (execute_balance _ _ _ _ _ _ _ Hok H) as (Hok' & _).
  assert (Hps : ps = []).
  { destruct Hm as [->|[x [k ->]]]; cbn [funds_execute] in H; [binv H; clean; reflexivity|].
    destruct k; [binv H; clean; reflexivity|discriminate]. }
  split; [|exact Hps]. apply claimable_same; auto.
  assert (Hok2 := Hok). destruct Hok2 as (HT & _ & Hn & Hc).
  destruct (handed_cases _ _ _ _ _ _ _ Hok H) as [(n & -> & -> & HT0 & Hf & Hg)|[(c & x & -> & -> & HT0 & Hf & Hg)|Hg]].
  - rewrite Hg, map_map in Hni. cbn [fst] in Hni. destruct a as [d|d|d i]; cbn [amount]; try reflexivity.
    unfold namt. cbn [f_native f_eff with_rewards]. apply (side_share_other _ _ _ _ _ _ _ HT Hn Hf).
    intros Hin. apply Hni. rewrite <- (map_map fst Native). apply in_map. exact Hin.
  - rewrite Hg in Hni. cbn [map fst In] in Hni. destruct a as [d|d|d i]; cbn [amount]; try reflexivity.
    unfold camt. cbn [f_cw20 f_eff with_rewards]. apply (side_share_other _ _ _ _ _ _ _ HT Hc Hf).
    cbn [map fst In]. intros [->|[]]. apply Hni. left. reflexivity.
  - exfalso. destruct Hg as (_ & H1 & H2). destruct Hm as [->|[x [k ->]]]; [congruence|eapply H2; reflexivity].
Qed.

(** C13 *)
Lemma weights_keep_rewards b o sender coins ch f' ps : reachable b ->
  funds_execute o (b_funds b) sender coins (FUpdateUserWeights ch) = Ok (f', ps) ->
  ps = [] /\ forall u a, claimable f' u a = claimable (b_funds b) u a.
Proof.
  intros Hr H. destruct (reachable_solvent b Hr) as (Hok & _). cbn [funds_execute] in H. binv H. clean.
  split; [reflexivity|]. destruct (update_user_weights_ok _ _ _ _ Hok Hb) as (_ & [] & Hok' & _).
  intros u a. apply claimable_same; auto. destruct a; cbn [amount]; auto.
Qed.

Lemma newcomer b u a : reachable b -> oget (f_weights (b_funds b)) u = None -> claimable (b_funds b) u a = Ok 0.
Proof.
  intros Hr Hu. destruct (reachable_solvent b Hr) as (Hok & _). rewrite (claimable_amount _ _ _ Hok).
  assert (Hz : amount (b_funds b) u a = 0).
  { destruct Hok as (_ & He & Hn & Hc). specialize (He u). rewrite Hu in He. cbn in He.
    destruct a; cbn [amount]; [apply absent_amt; assumption|apply absent_amt; assumption|reflexivity]. }
  rewrite Hz. pose proof M128_pos. replace (0 <? M128) with true by lia. reflexivity.
Qed.

(** C14 *)
Lemma filter_map_swap {A B} (g : A -> B) p (l : list A) : filter p (map g l) = map g (filter (fun a => p (g a)) l).
Proof. induction l as [|a l IH]; [reflexivity|]. cbn [map filter]. rewrite IH. destruct (p (g a)); reflexivity. Qed.

Lemma map_res_validate l : ~ In 0 l -> map_res addr_validate l = Ok l.
Proof.
  induction l as [|a l IH]; intros H; [reflexivity|]. cbn [map_res In] in *. unfold addr_validate at 1.
  replace (a =? 0) with false by lia. cbn [bind]. rewrite IH by tauto. reflexivity.
Qed.

Lemma existsb_map {A B} (p : B -> bool) (g : A -> B) l : existsb p (map g l) = existsb (fun x => p (g x)) l.
Proof. induction l as [|a l IH]; [reflexivity|]. cbn [map existsb]. rewrite IH. reflexivity. Qed.

Lemma existsb_false {A} (l : list A) : existsb (fun _ => false) l = false.
Proof. induction l; auto. Qed.

Lemma claim_amount f n c u ns cs o1 o2 u' a :
  claimed (f_native f) u (ogetN (f_eff f) u) ns n o1 -> claimed (f_cw20 f) u (ogetN (f_eff f) u) cs c o2 ->
  amount (with_rewards f n c) u' a =
  if (u' =? u) && asset_in a (map Native ns ++ map Cw20 cs) then 0 else amount f u' a.
Proof.
  intros Hn Hc. unfold asset_in. rewrite existsb_app, !existsb_map.
  destruct a as [d|d|d i]; cbn [amount asset_eqb]; rewrite ?existsb_false.
  - rewrite Bool.orb_false_r. unfold namt. cbn [f_native f_eff with_rewards]. destruct (u' =? u) eqn:E; cbn [andb].
    + replace u' with u by lia. rewrite (claimed_amt _ _ _ _ _ _ d Hn). reflexivity.
    + apply (claimed_amt_other _ _ _ _ _ _ Hn). lia.
  - cbn [orb]. unfold camt. cbn [f_cw20 f_eff with_rewards]. destruct (u' =? u) eqn:E; cbn [andb].
    + replace u' with u by lia. rewrite (claimed_amt _ _ _ _ _ _ d Hc). reflexivity.
    + apply (claimed_amt_other _ _ _ _ _ _ Hc). lia.
  - destruct ((u' =? u) && _); reflexivity.
Qed.

Lemma claim_pays_query b o sender coins user ns cs f' ps : reachable b -> let f := b_funds b in
  funds_execute o f sender coins (FClaim user ns cs) = Ok (f', ps) ->
  (exists n c, query_user_rewards f user ns cs = Ok (n, c) /\
     ps = pay_all Native user n ++ pay_all Cw20 user c) /\
  (forall u a, claimable f' u a =
     if (u =? user) && asset_in a (map Native ns ++ map Cw20 cs) then Ok 0 else claimable f u a).
Proof.
  intros Hr f H. destruct (reachable_solvent b Hr) as (Hok & _). fold f in Hok.
  destruct (execute_balance _ _ _ _ _ _ _ Hok H) as (Hok' & _). cbn [funds_execute] in H.
  destruct (claim_ok _ _ _ _ _ _ _ _ Hok H) as (_ & _ & H0 & Hcs & n & o1 & c & o2 & -> & Hn & Hc & ->). split.
  - set (wn := fun d => (d, namt f user d)). set (wc := fun d => (d, camt f user d)).
    exists (map wn (dedup [] ns)), (map wc (dedup [] cs)). split.
    + unfold query_user_rewards, addr_validate. replace (user =? 0) with false by lia. cbn [bind].
      rewrite (map_res_intro _ wn); [|].
      * cbn [bind]. fold addr_validate. change (fun a : N => if a =? 0 then Err EInvalidAddr else Ok a) with addr_validate.
        rewrite (map_res_validate cs Hcs). cbn [bind]. rewrite (map_res_intro _ wc); [reflexivity|].
        intros d Hd. apply dedup_In in Hd. rewrite (claimable_amount _ _ _ Hok). cbn [amount].
        destruct Hc as (_ & _ & _ & Hm & _). specialize (Hm d (proj1 Hd)). fold (camt f user d) in Hm.
        replace (camt f user d <? M128) with true by lia. reflexivity.
      * intros d Hd. apply dedup_In in Hd. rewrite (claimable_amount _ _ _ Hok). cbn [amount].
        destruct Hn as (_ & _ & _ & Hm & _). specialize (Hm d (proj1 Hd)). fold (namt f user d) in Hm.
        replace (namt f user d <? M128) with true by lia. reflexivity.
    + unfold pay_all. rewrite !filter_map_swap. cbn [snd wn wc].
      destruct Hn as (_ & _ & _ & _ & ->), Hc as (_ & _ & _ & _ & ->). reflexivity.
  - intros u a. rewrite !claimable_amount by assumption. rewrite (claim_amount f n c user ns cs o1 o2 u a Hn Hc).
    destruct (_ && _); [|reflexivity]. pose proof M128_pos. replace (0 <? M128) with true by lia. reflexivity.
Qed.

Lemma claim_again o o' f sender coins user ns cs f' ps sender' coins' ns' cs' f'' ps' : funds_ok f ->
  funds_execute o f sender coins (FClaim user ns cs) = Ok (f', ps) ->
  incl ns' ns -> incl cs' cs ->
  funds_execute o' f' sender' coins' (FClaim user ns' cs') = Ok (f'', ps') -> ps' = [].
Proof.
  intros Hok H Hi1 Hi2 H'. destruct (execute_balance _ _ _ _ _ _ _ Hok H) as (Hok' & _). cbn [funds_execute] in H, H'.
  destruct (claim_ok _ _ _ _ _ _ _ _ Hok H) as (_ & _ & H0 & Hcs & n & o1 & c & o2 & -> & Hn & Hc & ->).
  destruct (claim_ok _ _ _ _ _ _ _ _ Hok' H') as (_ & _ & _ & _ & n' & o1' & c' & o2' & _ & Hn' & Hc' & ->).
  destruct Hn' as (_ & _ & _ & _ & ->), Hc' as (_ & _ & _ & _ & ->). cbn [f_native f_cw20 f_eff with_rewards].
  assert (Hz : forall (p : N -> bool) l, (forall x, In x l -> p x = false) -> filter p (dedup [] l) = []).
  { intros p l Hp. assert (Hp' : forall x, In x (dedup [] l) -> p x = false) by (intros x Hx; apply Hp; apply dedup_In in Hx; tauto).
    induction (dedup [] l) as [|y t IH]; [reflexivity|]. cbn [filter]. rewrite (Hp' y (or_introl eq_refl)). apply IH. intros; apply Hp'; right; assumption. }
  rewrite !Hz; [reflexivity| |].
  - intros x Hx. rewrite (claimed_amt _ _ _ _ _ _ x Hc). apply Hi2, existsb_eqb in Hx. rewrite Hx. reflexivity.
  - intros x Hx. rewrite (claimed_amt _ _ _ _ _ _ x Hn). apply Hi1, existsb_eqb in Hx. rewrite Hx. reflexivity.
Qed.

Lemma claim_again_pays_nothing b o o' sender coins user ns cs f' ps sender' coins' ns' cs' f'' ps' : reachable b ->
  funds_execute o (b_funds b) sender coins (FClaim user ns cs) = Ok (f', ps) ->
  incl ns' ns -> incl cs' cs ->
  funds_execute o' f' sender' coins' (FClaim user ns' cs') = Ok (f'', ps') -> ps' = [].
Proof. intros Hr. apply claim_again. apply (reachable_solvent b Hr). Qed.

Lemma claim_one_defined r u w a outs : idx r u a <= glob r a -> amt r w u a < M128 ->
  exists r' o', claim_one u w (r, outs) a = Ok (r', o').
Proof.
  intros Hi Hm. unfold claim_one. fold (glob r a). destruct (glob r a =? 0); [eauto|].
  rewrite (user_reward_defined r u a w (glob r a) eq_refl Hi Hm). cbn [bind]. destruct (_ =? 0); eauto.
Qed.

Lemma claim_fold_defined u w l : forall r outs, (forall a, idx r u a <= glob r a) -> (forall a, In a l -> amt r w u a < M128) ->
  exists r' o', fold_res (claim_one u w) (r, outs) l = Ok (r', o').
Proof.
  induction l as [|a l IH]; intros r outs Hi Hm; cbn [fold_res]; [eauto|].
  destruct (claim_one_defined r u w a outs (Hi a) (Hm a (or_introl eq_refl))) as (r1 & o1 & H1). rewrite H1. cbn [bind].
  assert (Hcase : r1 = r \/ r1 = set_dist r u a (mk_distribution (glob r a) 0)).
  { unfold claim_one in H1. fold (glob r a) in H1. destruct (glob r a =? 0); [left; congruence|]. binv H1.
    destruct (x =? 0); inversion H1; auto. }
  destruct Hcase as [->| ->]; [apply IH; auto; intros; apply Hm; right; assumption|].
  apply IH.
  - intros a'. unfold idx. rewrite get_dist_set, N.eqb_refl. cbn [andb]. destruct (a' =? a) eqn:E; [|apply Hi].
    cbn [d_index]. replace a' with a by lia. unfold glob; cbn. lia.
  - intros a' Hin. specialize (Hm a' (or_intror Hin)). unfold amt, idx, pend in *. rewrite !get_dist_set, N.eqb_refl.
    cbn [andb]. destruct (a' =? a) eqn:E; [|exact Hm]. cbn [d_index d_pending]. replace a' with a by lia.
    unfold glob; cbn. rewrite N.sub_diag, div0. apply M128_pos.
Qed.

Lemma fold_validate_intro {S} (g : S -> N -> res S) l : ~ In 0 l -> forall s,
  fold_res (fun s a => a <- addr_validate a ;; g s a) s l = fold_res g s l.
Proof.
  induction l as [|a l IH]; intros Hni s; cbn [fold_res In] in *; [reflexivity|].
  unfold addr_validate at 1. replace (a =? 0) with false by lia. cbn [bind]. destruct (g s a); cbn [bind]; [|reflexivity].
  apply IH. tauto.
Qed.

Lemma claim_succeeds b o user coins ns cs : reachable b ->
  (forall a, total_of a (b_distributed b) < 2 ^ 128) ->
  fo_restricted o user = false -> user <> 0 -> ~ In 0 cs ->
  exists f' ps, funds_execute o (b_funds b) user coins (FClaim user ns cs) = Ok (f', ps).
Proof.
  intros Hr Hd Hres Hu Hcs. change (2 ^ 128) with M128 in Hd.
  destruct (reachable_solvent b Hr) as ((_ & _ & (Hn & _) & (Hc & _)) & _).
  cbn [funds_execute]. unfold claim_rewards. rewrite Hres. cbn [negb guard bind]. unfold addr_validate at 1.
  replace (user =? 0) with false by lia. cbn [bind]. rewrite N.eqb_refl. cbn [guard bind].
  destruct (claim_fold_defined user (ogetN (f_eff (b_funds b)) user) ns (f_native (b_funds b)) []) as (n & o1 & H1).
  { intros; apply Hn. } { intros d _. exact (amount_lt b (Native d) user Hr (Hd _)). }
  rewrite H1. cbn [bind]. rewrite (fold_validate_intro _ cs Hcs).
  destruct (claim_fold_defined user (ogetN (f_eff (b_funds b)) user) cs (f_cw20 (b_funds b)) []) as (c & o2 & H2).
  { intros; apply Hc. } { intros d _. exact (amount_lt b (Cw20 d) user Hr (Hd _)). }
  rewrite H2. cbn [bind]. eauto.
Qed.

(** C15 *)
Lemma claim_auth o f sender coins user ns cs f' ps :
  funds_execute o f sender coins (FClaim user ns cs) = Ok (f', ps) ->
  sender = user /\ fo_restricted o user = false.
Proof.
  intros H. cbn [funds_execute] in H. unfold claim_rewards in H. binv H. clean.
  destruct (fo_restricted o user); [discriminate|]. split; [lia|reflexivity].
Qed.

Lemma payments_are_claims o f sender coins m f' ps p :
  funds_execute o f sender coins m = Ok (f', ps) -> In p ps ->
  pay_to p = sender /\ fo_restricted o sender = false /\ exists ns cs, m = FClaim sender ns cs.
Proof.
  intros H Hin. destruct m as [ch|mn| |user ns cs|x known].
  - cbn [funds_execute] in H. binv H. clean. destruct Hin.
  - cbn [funds_execute] in H. binv H. clean. destruct Hin.
  - cbn [funds_execute] in H. binv H. clean. destruct Hin.
  - destruct (claim_auth _ _ _ _ _ _ _ _ _ H) as [-> Hr]. cbn [funds_execute] in H. unfold claim_rewards in H. binv H. clean.
    split; [|split; [exact Hr|eauto]].
    apply in_app_or in Hin. destruct Hin as [Hin|Hin]; apply in_map_iff in Hin; destruct Hin as [q [<- _]]; reflexivity.
  - cbn [funds_execute] in H. destruct known; [|discriminate]. binv H. clean. destruct Hin.
Qed.

(** C16 *)
Lemma eligibility_exact b u : reachable b -> let f := b_funds b in
  oget (f_eff f) u = match oget (f_weights f) u with
                     | Some w => Some (if f_min f <=? w then w else 0)
                     | None => None
                     end.
Proof.
  intros Hr f. destruct (reachable_solvent b Hr) as ((_ & He & _) & _). fold f in He. rewrite (He u).
  unfold effective_weight. destruct (oget (f_weights f) u); reflexivity.
Qed.

Lemma total_exact b : reachable b -> let f := b_funds b in
  f_total f = lsum (fun uw => if f_min f <=? snd uw then snd uw else 0) (elems (f_weights f)).
Proof.
  intros Hr f. destruct (reachable_solvent b Hr) as ((Ht & He & _) & _). fold f in Ht, He. rewrite Ht. unfold wsum.
  assert (Hm : f_eff f = omapv (fun _ w => effective_weight w (f_min f)) (f_weights f)).
  { apply omap_ext. intros k. rewrite oget_omapv. apply He. }
  rewrite Hm, osum_omapv. reflexivity.
Qed.

Lemma minimum_keeps_rewards b o sender coins mn f' ps : reachable b ->
  funds_execute o (b_funds b) sender coins (FUpdateMinimum mn) = Ok (f', ps) ->
  ps = [] /\ f_min f' = mn /\ f_weights f' = f_weights (b_funds b) /\
  forall u a, claimable f' u a = claimable (b_funds b) u a.
Proof.
  intros Hr H. destruct (reachable_solvent b Hr) as (Hok & _). cbn [funds_execute] in H. binv H. clean.
  destruct (update_minimum_ok _ _ _ _ Hok Hb) as (_ & H1 & H2 & _ & _ & Hok' & _ & _ & _ & _ & H3 & H4).
  split; [reflexivity|]. split; [exact H1|]. split; [exact H2|].
  intros u a. apply claimable_same; auto. destruct a; cbn [amount]; auto.
Qed.

(** C17 *)
Lemma fold_oset_last l : forall m u, oget (fold_left (fun m (uw : N * N) => oset m (fst uw) (snd uw)) l m) u = last_weight l u (oget m u).
Proof.
  induction l as [|[k w] l IH]; intros m u; [reflexivity|]. cbn [fold_left last_weight]. rewrite IH, oget_oset. reflexivity.
Qed.

Lemma weights_admin_only b o sender coins m f' ps : reachable b -> let f := b_funds b in
  funds_execute o f sender coins m = Ok (f', ps) ->
  f_admin f' = f_admin f /\
  match m with
  | FUpdateUserWeights ch =>
      sender = f_admin f /\ f_min f' = f_min f /\
      forall u, oget (f_weights f') u = last_weight ch u (oget (f_weights f) u)
  | FUpdateMinimum mn => sender = f_admin f /\ f_min f' = mn /\ f_weights f' = f_weights f
  | _ => f_min f' = f_min f /\ f_weights f' = f_weights f /\ f_eff f' = f_eff f
  end.
Proof.
  intros Hr f H. destruct (reachable_solvent b Hr) as (Hok & _). fold f in Hok.
  destruct (execute_balance _ _ _ _ _ _ _ Hok H) as (_ & Ha & _). split; [exact Ha|].
  destruct m as [ch|mn| |user ns cs|x known]; cbn [funds_execute] in H.
  - binv H. clean. destruct (update_user_weights_ok _ _ _ _ Hok Hb) as (H1 & [] & _ & H2).
    split; [exact H1|]. split; [assumption|]. intros u. rewrite H2. apply fold_oset_last.
  - binv H. clean. destruct (update_minimum_ok _ _ _ _ Hok Hb) as (H0 & H1 & H2 & _). auto.
  - binv H. clean. destruct (distribute_native_ok _ _ _ _ Hok Hb) as (_ & n & -> & _). auto.
  - destruct (claim_ok _ _ _ _ _ _ _ _ Hok H) as (_ & _ & _ & _ & n & o1 & c & o2 & -> & _). auto.
  - destruct known; [|discriminate]. binv H. clean. destruct (distribute_cw20_ok _ _ _ _ _ Hok Hb) as (_ & c & -> & _). auto.
Qed.

Lemma initial_weights_unique admin ent mn l f : funds_instantiate admin ent mn l = Ok f ->
  NoDup (map fst l) /\ f_admin f = admin /\ f_enterprise f = ent /\
  forall u, oget (f_weights f) u = last_weight l u None.
Proof.
  intros H. apply instantiate_ok in H. destruct H as (_ & H1 & H2 & _ & _ & _ & H3 & H4 & _).
  repeat split; auto. intros u. rewrite H3, fold_oset_last, oget_empty. reflexivity.
Qed.

(** C18 *)
Lemma asset_eqb_eq x y : asset_eqb x y = true <-> x = y.
Proof.
  destruct x, y; cbn; split; intros H; try discriminate; try congruence.
  - apply N.eqb_eq in H. congruence.
  - inversion H. apply N.eqb_refl.
  - apply N.eqb_eq in H. congruence.
  - inversion H. apply N.eqb_refl.
  - apply Bool.andb_true_iff in H. destruct H as [H1 H2]. apply N.eqb_eq in H1, H2. congruence.
  - inversion H. rewrite !N.eqb_refl. reflexivity.
Qed.

Lemma asset_in_In a l : asset_in a l = true <-> In a l.
Proof.
  unfold asset_in. rewrite existsb_exists. split.
  - intros [x [H1 H2]]. apply asset_eqb_eq in H2. subst. exact H1.
  - intros H. exists a. split; [exact H|]. apply asset_eqb_eq. reflexivity.
Qed.

Lemma last_map_some {A} (l : list A) : l <> [] -> exists a, last (map Some l) None = Some a /\ nth_error l (length l - 1) = Some a.
Proof.
  intros H. destruct (exists_last H) as (l' & a & ->). exists a. split.
  - rewrite map_app. cbn [map]. apply last_last.
  - rewrite app_length. cbn [length]. replace (length l' + 1 - 1)%nat with (length l') by lia.
    rewrite nth_error_app2 by lia. rewrite Nat.sub_diag. reflexivity.
Qed.

Lemma skipn_plus {A} (l : list A) : forall n m, skipn (n + m) l = skipn n (skipn m l).
Proof.
  intros n m. revert l. induction m as [|m IH]; intros l; [rewrite Nat.add_0_r; reflexivity|].
  rewrite Nat.add_succ_r. destruct l as [|a l]; cbn [skipn]; [destruct n; reflexivity|]. apply IH.
Qed.

Lemma page_step (W : list asset) k i : (0 < k)%nat -> (i < length W)%nat ->
  let l := firstn k (skipn (S i) W) in
  skipn (S i) W = l ++ skipn (S (i + length l)) W /\
  (l = [] -> skipn (S i) W = []) /\
  (l <> [] -> exists a, last (map Some l) None = Some a /\ nth_error W (i + length l) = Some a).
Proof.
  intros Hk Hi l.
  assert (Hl : (length l = Nat.min k (length W - S i))%nat) by (unfold l; rewrite firstn_length, skipn_length; reflexivity).
  assert (Hsplit : skipn (S i) W = l ++ skipn (S (i + length l)) W).
  { assert (E : l = firstn (length l) (skipn (S i) W)).
    { rewrite Hl. unfold l. destruct (Nat.min_spec k (length W - S i)) as [[_ ->]|[Hge ->]]; [reflexivity|].
      rewrite !firstn_all2; rewrite ?skipn_length; lia || reflexivity. }
    rewrite E at 1. replace (S (i + length l)) with (length l + S i)%nat by lia.
    rewrite skipn_plus. symmetry. apply firstn_skipn. }
  split; [exact Hsplit|]. split.
  - intros H. rewrite H in Hl. cbn in Hl. apply length_zero_iff_nil. rewrite skipn_length. lia.
  - intros H. destruct (last_map_some l H) as (a & H1 & H2). exists a. split; [exact H1|].
    assert (Hpos : (0 < length l)%nat) by (destruct l; [congruence|cbn; lia]).
    rewrite <- H2. replace (i + length l)%nat with (S i + (length l - 1))%nat by lia.
    rewrite <- (firstn_skipn (S i) W) at 1. rewrite nth_error_app2; rewrite firstn_length; [|lia].
    replace (S i + (length l - 1) - Nat.min (S i) (length W))%nat with (length l - 1)%nat by lia.
    rewrite Hsplit. rewrite nth_error_app1 by lia. reflexivity.
Qed.

Lemma filter_nil_iff {A} (p : A -> bool) l : filter p l = [] <-> forall x, In x l -> p x = false.
Proof.
  induction l as [|a l IH]; cbn [filter In]; [split; [intros _ x []|reflexivity]|].
  destruct (p a) eqn:E; split; intros H; try discriminate.
  - rewrite (H a (or_introl eq_refl)) in E. discriminate.
  - intros x [<-|Hx]; [exact E|]. apply IH; assumption.
  - apply IH. intros; apply H; right; assumption.
Qed.

Lemma loop_spec W k page : (0 < k)%nat -> pager W k page -> forall fuel i a assets,
  nth_error W i = Some a ->
  (whitelist_loop fuel page assets (Some a) = Ok tt -> incl assets (skipn (S i) W)) /\
  ((length W - i <= fuel)%nat -> incl assets (skipn (S i) W) -> whitelist_loop fuel page assets (Some a) = Ok tt) /\
  ((length W - i <= fuel)%nat -> ~ incl assets (skipn (S i) W) ->
     whitelist_loop fuel page assets (Some a) = Err EAssetNotWhitelisted).
Proof.
  intros Hk [Hp0 Hp]. induction fuel as [|n IH]; intros i a assets Ha;
    assert (Hi : (i < length W)%nat) by (apply nth_error_Some; congruence).
  - destruct assets as [|x t]; cbn [whitelist_loop].
    + split; [intros _ y []|]. split; intros; [reflexivity|]. exfalso. apply H0. intros y [].
    + split; [discriminate|]. split; intros; lia.
  - destruct assets as [|x t]; cbn [whitelist_loop].
    + split; [intros _ y []|]. split; intros; [reflexivity|]. exfalso. apply H0. intros y [].
    + set (assets := x :: t). rewrite (Hp i a Ha). cbn [bind].
      destruct (page_step W k i Hk Hi) as (Hsplit & Hempty & Hlast). cbv zeta in *.
      set (l := firstn k (skipn (S i) W)) in *.
      set (rest := filter (fun a0 => negb (asset_in a0 l)) assets).
      assert (Hrest : forall (Q : list asset), incl rest Q <-> incl assets (l ++ Q)).
      { intros Q. split; intros H y Hy.
        - destruct (asset_in y l) eqn:E; [apply in_or_app; left; apply asset_in_In; exact E|].
          apply in_or_app; right. apply H. apply filter_In. rewrite E. auto.
        - apply filter_In in Hy. destruct Hy as [Hy E]. specialize (H y Hy). apply in_app_or in H. destruct H as [H|H]; [|exact H].
          apply asset_in_In in H. rewrite H in E. discriminate. }
      destruct l as [|b l'] eqn:El.
      * rewrite (Hempty eq_refl).
        assert (Hra : rest = assets). { unfold rest. clear. induction assets as [|y s IHs]; [reflexivity|]. cbn [filter asset_in existsb negb] in *. f_equal. exact IHs. }
        rewrite Hra. cbn [map last]. subst assets.
        assert (Hw : whitelist_loop n page (x :: t) None = Err EAssetNotWhitelisted) by (destruct n; reflexivity).
        rewrite Hw. split; [discriminate|]. split; [|auto].
        intros _ H. exfalso. exact (H x (or_introl eq_refl)).
      * rewrite <- El in *. destruct (Hlast) as (a' & Hl1 & Hl2); [rewrite El; discriminate|].
        rewrite Hl1. destruct (IH (i + length l)%nat a' rest Hl2) as (I1 & I2 & I3).
        assert (Hpos : (0 < length l)%nat) by (rewrite El; cbn; lia).
        rewrite Hsplit. rewrite <- Hrest. split; [exact I1|].
        split; intros Hf H; [apply I2|apply I3]; auto; lia.
Qed.

Lemma whitelist_spec W k page global fuel assets : (0 < k)%nat -> pager W k page ->
  (assert_assets_whitelisted fuel page global assets = Ok tt -> incl assets (W ++ global)) /\
  ((length W <= fuel)%nat -> incl assets (W ++ global) -> assert_assets_whitelisted fuel page global assets = Ok tt) /\
  ((length W <= fuel)%nat -> ~ incl assets (W ++ global) ->
     assert_assets_whitelisted fuel page global assets = Err EAssetNotWhitelisted).
Proof.
  intros Hk Hpg. assert (Hpg' := Hpg). destruct Hpg' as [Hp0 Hp]. unfold assert_assets_whitelisted. rewrite Hp0. cbn [bind].
  set (l := firstn k W). set (rest := filter (fun a0 => negb (asset_in a0 (l ++ global))) assets).
  assert (Hrest : forall (Q : list asset), incl rest Q <-> incl assets ((l ++ global) ++ Q)).
  { intros Q. split; intros H y Hy.
    - destruct (asset_in y (l ++ global)) eqn:E; [apply in_or_app; left; apply asset_in_In; exact E|].
      apply in_or_app; right. apply H. apply filter_In. rewrite E. auto.
    - apply filter_In in Hy. destruct Hy as [Hy E]. specialize (H y Hy). apply in_app_or in H. destruct H as [H|H]; [|exact H].
      apply asset_in_In in H. rewrite H in E. discriminate. }
  destruct W as [|w W'].
  - assert (El : l = []) by (unfold l; destruct k; reflexivity). rewrite El in *. cbn [map last app] in *.
    assert (Hw : forall r, whitelist_loop fuel page r None = match r with [] => Ok tt | _ => Err EAssetNotWhitelisted end).
    { intros r. destruct fuel, r; reflexivity. }
    rewrite Hw. specialize (Hrest []). rewrite app_nil_r in Hrest. rewrite <- Hrest.
    destruct rest as [|y r]; split; [intros _ z []| |discriminate|]; split; auto.
    + intros _ H. exfalso. apply H. intros z [].
    + intros _ H. exfalso. exact (H y (or_introl eq_refl)).
  - assert (Hl : l <> []) by (unfold l; destruct k; [lia|discriminate]).
    destruct (last_map_some l Hl) as (a & H1 & H2). rewrite H1.
    assert (Hpos : (0 < length l)%nat) by (destruct l; [congruence|cbn; lia]).
    assert (Hlen : (length l <= length (w :: W'))%nat) by (unfold l; rewrite firstn_length; lia).
    assert (Hsp : w :: W' = l ++ skipn (length l) (w :: W')).
    { assert (E : l = firstn (length l) (w :: W')).
      { unfold l. rewrite firstn_length. destruct (Nat.min_spec k (length (w :: W'))) as [[_ ->]|[Hge ->]]; [reflexivity|].
        rewrite !firstn_all2; lia || reflexivity. }
      rewrite E at 1. symmetry. apply firstn_skipn. }
    assert (Ha : nth_error (w :: W') (length l - 1) = Some a) by (rewrite Hsp, nth_error_app1 by lia; exact H2).
    destruct (loop_spec (w :: W') k page Hk Hpg fuel (length l - 1)%nat a rest Ha) as (I1 & I2 & I3).
    replace (S (length l - 1)) with (length l) in * by lia.
    assert (Heq : incl assets ((w :: W') ++ global) <-> incl rest (skipn (length l) (w :: W'))).
    { rewrite Hrest. rewrite Hsp at 1. split; intros H y Hy; specialize (H y Hy); rewrite !in_app_iff in *; tauto. }
    rewrite Heq. split; [exact I1|]. split; intros Hf H; [apply I2|apply I3]; auto; lia.
Qed.

Lemma only_whitelisted o f sender coins m f' ps W k : (0 < k)%nat ->
  pager W k (wl_page (fo_wl o)) ->
  funds_execute o f sender coins m = Ok (f', ps) ->
  forall a A, In (a, A) (handed_over f (mk_fcall o sender coins m)) -> In a W \/ In a (wl_global (fo_wl o)).
Proof.
  intros Hk Hp H a A. unfold handed_over. cbn [fc_oracle fc_sender fc_coins fc_msg]. rewrite H.
  destruct m as [ch|mn| |user ns cs|x known]; try (intros []; fail); intros Hin; apply in_app_or.
  - cbn [funds_execute] in H. binv H. unfold distribute_native in Hb. binv Hb. destruct x0.
    apply (proj1 (whitelist_spec W k _ _ _ _ Hk Hp)) in Hb0. apply Hb0.
    apply in_map_iff in Hin. destruct Hin as [y [E Hy]]. inversion E. apply in_map_iff. exists y. auto.
  - cbn [funds_execute] in H. destruct known; [|discriminate]. binv H. unfold distribute_cw20 in Hb. binv Hb. destruct x1.
    apply (proj1 (whitelist_spec W k _ _ _ _ Hk Hp)) in Hb0. apply Hb0. destruct Hin as [E|[]]. inversion E. left. reflexivity.
Qed.

Lemma whitelisted_accepted o f sender coins m W k : (0 < k)%nat ->
  pager W k (wl_page (fo_wl o)) -> (length W <= wl_fuel (fo_wl o))%nat ->
  (m = FDistributeNative \/ exists x, m = FReceive x true) ->
  let assets := match m with FDistributeNative => map (fun c => Native (fst c)) coins | _ => [Cw20 sender] end in
  funds_execute o f sender coins m = Err EAssetNotWhitelisted <->
  ~ (forall a, In a assets -> In a W \/ In a (wl_global (fo_wl o))).
Proof.
  intros Hk Hp Hf Hm assets.
  assert (Hin : incl assets (W ++ wl_global (fo_wl o)) <-> (forall a, In a assets -> In a W \/ In a (wl_global (fo_wl o)))).
  { split; intros H a Ha; [apply in_app_or|apply in_or_app]; apply H; exact Ha. }
  rewrite <- Hin. destruct (whitelist_spec W k _ (wl_global (fo_wl o)) (wl_fuel (fo_wl o)) assets Hk Hp) as (_ & H1 & H2).
  specialize (H1 Hf). specialize (H2 Hf).
  assert (Hd : forall T r l e, fold_res (distribute_one T) r l = Err e -> e <> EAssetNotWhitelisted).
  { intros T r l e. revert r. induction l as [|[y Y] l IH]; intros r; cbn [fold_res]; [discriminate|].
    unfold distribute_one at 1, dec_from_ratio, uint_cadd.
    destruct (dec_checked_from_ratio Y T); cbn [bind]; [|intros E; inversion E; discriminate].
    destruct (_ <? _); cbn [bind]; [apply IH|intros E; inversion E; discriminate]. }
  assert (Hdec : forall (l1 l2 : list asset), incl l1 l2 \/ ~ incl l1 l2).
  { intros l1 l2. destruct (forallb (fun x => asset_in x l2) l1) eqn:E.
    - left. intros x Hx. rewrite forallb_forall in E. apply asset_in_In, E, Hx.
    - right. intros H. assert (forallb (fun x => asset_in x l2) l1 = true); [|congruence].
      apply forallb_forall. intros x Hx. apply asset_in_In, H, Hx. }
  destruct Hm as [->|[x ->]]; cbn [funds_execute]; subst assets; cbn beta iota in *.
  - split.
    + intros H Hi. unfold distribute_native in H. rewrite (H1 Hi) in H. cbn [bind] in H.
      destruct (negb _); cbn [guard bind] in H; [|discriminate].
      destruct (fold_res _ _ _) eqn:E; cbn [bind] in H; [discriminate|]. inversion H; subst. exact (Hd _ _ _ _ E eq_refl).
    + intros Hn. unfold distribute_native. rewrite (H2 Hn). reflexivity.
  - split.
    + intros H Hi. unfold distribute_cw20 in H. rewrite (H1 Hi) in H. cbn [bind] in H.
      destruct (negb _); cbn [guard bind] in H; [|discriminate].
      destruct (distribute_one _ _ _) eqn:E; cbn [bind] in H; [discriminate|]. inversion H; subst.
      specialize (Hd (f_total f) (f_cw20 f) [(sender, x)] EAssetNotWhitelisted). cbn [fold_res] in Hd. apply Hd; [|reflexivity].
      exact (f_equal (fun r => bind r Ok) E).
    + intros Hn. unfold distribute_cw20. rewrite (H2 Hn). reflexivity.
Qed.

(** C53: reward bookkeeping never blocks a weight change *)
Lemma evolved_amount f0 f t u a : evolved f0 f t -> amount f u a = amount f0 u a.
Proof. intros []. destruct a; cbn [amount]; auto. Qed.

Lemma update_weight_one_defined f0 f t u w :
  evolved f0 f t -> eligible f -> (forall u a, amount f0 u a < M128) -> u <> 0 ->
  wsum (oset (f_eff f) u (effective_weight w (f_min f))) < M128 ->
  exists f' t', update_weight_one (f, t) (u, w) = Ok (f', t') /\
    f_eff f' = oset (f_eff f) u (effective_weight w (f_min f)).
Proof.
  intros Hev Hel Ha Hu Hlt. unfold update_weight_one. unfold addr_validate. replace (u =? 0) with false by lia. cbn [bind].
  assert (Hr : exists n c, (match oget (f_eff f) u with
        | None => Ok (with_rewards f (init_user (f_native f) u) (init_user (f_cw20 f) u))
        | Some o => n <- settle (f_native f) u o ;; c <- settle (f_cw20 f) u o ;; Ok (with_rewards f n c)
        end) = Ok (with_rewards f n c)).
  { destruct (oget (f_eff f) u) as [o|] eqn:E; [|eauto].
    destruct (settle_defined (f_native f) u o) as [n Hn].
    { intros; apply (ev_ok_n _ _ _ Hev). }
    { intros a. pose proof (evolved_amount _ _ _ u (Native a) Hev) as H. cbn [amount] in H. unfold namt in H at 1.
      unfold ogetN in H. rewrite E in H. cbn [dflt] in H. rewrite H. exact (Ha u (Native a)). }
    destruct (settle_defined (f_cw20 f) u o) as [c Hc].
    { intros; apply (ev_ok_c _ _ _ Hev). }
    { intros a. pose proof (evolved_amount _ _ _ u (Cw20 a) Hev) as H. cbn [amount] in H. unfold camt in H at 1.
      unfold ogetN in H. rewrite E in H. cbn [dflt] in H. rewrite H. exact (Ha u (Cw20 a)). }
    exists n, c. rewrite Hn, Hc. reflexivity. }
  destruct Hr as (n & c & Hr). rewrite Hr. cbn [bind f_min f_weights f_eff with_rewards].
  fold (ogetN (f_eff f) u). pose proof (wsum_ge (f_eff f) u) as Hge. pose proof (ev_total _ _ _ Hev) as Ht.
  pose proof (wsum_oset (f_eff f) u (effective_weight w (f_min f))) as Hs.
  unfold uint_sub, uint_add. replace (ogetN (f_eff f) u <=? t) with true by lia. cbn [bind].
  replace (_ <? M128) with true by lia. cbn [bind]. eexists _, _. split; [reflexivity|reflexivity].
Qed.

Lemma update_weights_defined f0 ch : forall f t,
  evolved f0 f t -> eligible f -> (forall u a, amount f0 u a < M128) -> ~ In 0 (map fst ch) ->
  (forall k, wsum (eff_after f (firstn k ch)) < M128) ->
  exists f' t', fold_res update_weight_one (f, t) ch = Ok (f', t').
Proof.
  induction ch as [|[u w] ch IH]; intros f t Hev Hel Ha H0 Hlt; cbn [fold_res]; [eauto|].
  cbn [map fst In] in H0.
  destruct (update_weight_one_defined f0 f t u w Hev Hel Ha) as (f1 & t1 & H1 & He1); [tauto|exact (Hlt 1%nat)|].
  rewrite H1. cbn [bind].
  destruct (update_weight_one_ok _ _ _ _ _ _ _ Hev Hel H1) as (Hev1 & Hel1 & _ & _).
  apply IH; auto. intros k. specialize (Hlt (S k)). unfold eff_after in *. cbn [firstn fold_left fst snd] in Hlt.
  rewrite He1, (ev_min _ _ _ Hev1), <- (ev_min _ _ _ Hev). exact Hlt.
Qed.

Lemma weight_updates_never_blocked b o coins ch : reachable b -> let f := b_funds b in
  (forall a, total_of a (b_distributed b) < 2 ^ 128) ->
  ~ In 0 (map fst ch) ->
  (forall k, lsum snd (elems (eff_after f (firstn k ch))) < 2 ^ 128) ->
  exists f', funds_execute o f (f_admin f) coins (FUpdateUserWeights ch) = Ok (f', []).
Proof.
  intros Hr f Hd H0 Hk. destruct (reachable_solvent b Hr) as (Hok & _). fold f in Hok.
  destruct Hok as (Ht & He & Hn & Hc). cbn [funds_execute]. unfold update_user_weights. rewrite N.eqb_refl. cbn [guard bind].
  destruct (update_weights_defined f ch f (f_total f) (evolved_refl f Ht Hn Hc) He) as (f' & t' & H); auto.
  - intros u a. apply (amount_lt b a u Hr). exact (Hd a).
  - rewrite H. cbn [bind]. eauto.
Qed.

(** C54: when a distribution goes through *)
Lemma distribution_limit o f sender coins d A : 
  assert_assets_whitelisted (wl_fuel (fo_wl o)) (wl_page (fo_wl o)) (wl_global (fo_wl o)) [Native d] = Ok tt ->
  f_total f <> 0 -> coins = [(d, A)] ->
  (exists f', funds_execute o f sender coins FDistributeNative = Ok (f', [])) <->
  ogetN (r_global (f_native f)) d + A * DEC / f_total f < 2 ^ 128.
Proof.
  intros Hw HT ->. change (2 ^ 128) with M128. cbn [funds_execute]. unfold distribute_native. cbn [map fst]. rewrite Hw.
  cbn [bind]. replace (f_total f =? 0) with false by lia. cbn [negb guard bind fold_res].
  unfold distribute_one, dec_from_ratio, dec_checked_from_ratio. replace (f_total f =? 0) with false by lia.
  set (q := A * DEC / f_total f). set (g := ogetN _ d). unfold uint_cadd.
  destruct (q <? M128) eqn:E1; cbn [bind].
  - destruct (g + q <? M128) eqn:E2; cbn [bind]; split; intros H; try lia; eauto. destruct H; discriminate.
  - split; intros H; [destruct H; discriminate|]. lia.
Qed.

(** Concrete cases *)
From Verif Require Import FundsExamples.

Lemma ex_init_ok : ex_init = Ok ex_f0.
Proof. vm_compute. reflexivity. Qed.

Lemma ex_reachable : reachable ex_books.
Proof. exists 1, 2, (Some 5), [(101, 10); (102, 30); (103, 3)], ex_f0, ex_calls. split; [exact ex_init_ok|reflexivity]. Qed.

Lemma ex_claimables :
  map_res (fun u => claimable (b_funds ex_books) u (Native 7)) [101; 102; 103; 104] = Ok [267; 776; 0; 34] /\
  total_of (Native 7) (b_distributed ex_books) = 1078.
Proof. vm_compute. auto. Qed.

Lemma ex_distribution : exists f',
  funds_execute ex_oracle (b_funds ex_books) 8 [(6, 5); (7, 1000)] FDistributeNative = Ok (f', []) /\
  In (Native 7, 1000) (handed_over (b_funds ex_books) (mk_fcall ex_oracle 8 [(6, 5); (7, 1000)] FDistributeNative)) /\
  claimable (b_funds ex_books) 102 (Native 7) = Ok 776 /\ claimable f' 102 (Native 7) = Ok 1098.
Proof. eexists. split; [vm_compute; reflexivity|]. vm_compute. intuition. Qed.

Lemma ex_update : exists f',
  funds_execute ex_oracle (b_funds ex_books) 1 [] (FUpdateUserWeights [(102, 0); (105, 9)]) = Ok (f', []) /\
  claimable f' 102 (Native 7) = Ok 776 /\ claimable f' 105 (Native 7) = Ok 0.
Proof. eexists. split; [vm_compute; reflexivity|]. vm_compute. auto. Qed.

Lemma ex_claim : exists f',
  funds_execute ex_oracle (b_funds ex_books) 101 [] (FClaim 101 [7; 9; 7; 8] [50]) =
    Ok (f', [mk_payment (Native 7) 101 267; mk_payment (Native 9) 101 2; mk_payment (Cw20 50) 101 111]).
Proof. eexists. vm_compute. reflexivity. Qed.

Lemma ex_claim_denied :
  funds_execute ex_oracle (b_funds ex_books) 102 [] (FClaim 101 [7] []) = Err EUnauthorized /\
  funds_execute ex_oracle (b_funds ex_books) 66 [] (FClaim 66 [7] []) = Err ERestricted.
Proof. vm_compute. auto. Qed.

Lemma ex_minimum : exists f',
  funds_execute ex_oracle (b_funds ex_books) 1 [] (FUpdateMinimum 25) = Ok (f', []) /\
  oget (f_eff (b_funds ex_books)) 101 = Some 20 /\ oget (f_eff f') 101 = Some 0 /\ claimable f' 101 (Native 7) = Ok 267.
Proof. eexists. split; [vm_compute; reflexivity|]. vm_compute. auto. Qed.

Lemma ex_duplicate : funds_instantiate 1 2 None [(101, 1); (102, 2); (101, 3)] = Err EDuplicateWeight.
Proof. vm_compute. reflexivity. Qed.

Lemma ex_pager : pager ex_list 2 (wl_page (fo_wl ex_oracle)) /\ (length ex_list <= wl_fuel (fo_wl ex_oracle))%nat.
Proof.
  split; [split|]; [reflexivity| |vm_compute; lia].
  intros i a H. do 4 (destruct i as [|i]; [inversion H; reflexivity|]). destruct i; discriminate.
Qed.

Lemma ex_not_whitelisted :
  funds_execute ex_oracle (b_funds ex_books) 8 [(7, 5); (8, 1)] FDistributeNative = Err EAssetNotWhitelisted.
Proof. vm_compute. reflexivity. Qed.

Lemma ex_eff_after k : lsum snd (elems (eff_after (b_funds ex_books) (firstn k [(102, 0); (105, 9)]))) < 2 ^ 128.
Proof. destruct k as [|[|[|k]]]; vm_compute; reflexivity. Qed.

Definition tiny : res funds := funds_instantiate 1 2 None [(101, 1)].

Lemma large_distribution_fails : exists f,
  funds_instantiate 1 2 None [(101, 1)] = Ok f /\ f_total f <> 0 /\
  funds_execute ex_oracle f 8 [(7, 10 ^ 21)] FDistributeNative = Err EPanic.
Proof. eexists. split; [vm_compute; reflexivity|]. split; [vm_compute; discriminate|vm_compute; reflexivity]. Qed.
