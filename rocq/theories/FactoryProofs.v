(** The creation of a DAO, executed symbolically. *)
From Verif Require Import Base OMap OMapLemmas Assets MemberModel Msgs TreasuryModel EnterpriseModel OutpostsModel
  FactoryModel FactorySpec.

(** * Replies *)

Lemma reply_zero o s id : exists e, factory_reply o s id (ROk (Some 0)) = Err e.
Proof.
  unfold factory_reply. destruct id as [|p]; [eexists; reflexivity|].
  do 4 (destruct p as [p|p|]; try (eexists; reflexivity)).
Qed.

Lemma reply_addr_some a : a <> 0 -> reply_addr (ROk (Some a)) = Ok a.
Proof.
  intros H. unfold reply_addr, addr_validate. destruct (a =? 0) eqn:E; [apply N.eqb_eq in E; contradiction|reflexivity].
Qed.

Definition same_store (s : factory) (p : pending) (s' : factory) : Prop := s' = fa_put s p.

Lemma put_pending s p : fa_pending (fa_put s p) = Some p.
Proof. reflexivity. Qed.

Lemma put_put s p q : fa_put (fa_put s p) q = fa_put s q.
Proof. reflexivity. Qed.

(** * Delivery *)

Lemma deliver_inst n o s admin code m id rest a fresh s1 more :
  factory_reply o s id (ROk (Some a)) = Ok (s1, more) ->
  deliver (S n) o s (inst admin code m id :: rest) (a :: fresh)
  = ('(s2, log) <- deliver n o s1 (more ++ rest) fresh ;; Ok (s2, Created a admin code m :: log)).
Proof. intros H. cbn [deliver inst sm_msg sm_reply]. unfold addr in *. rewrite H. reflexivity. Qed.

Lemma deliver_inst_inv n o s admin code m id rest fresh s2 log :
  deliver (S n) o s (inst admin code m id :: rest) fresh = Ok (s2, log) ->
  exists a fresh' s1 more log', fresh = a :: fresh' /\ a <> 0
    /\ factory_reply o s id (ROk (Some a)) = Ok (s1, more)
    /\ deliver n o s1 (more ++ rest) fresh' = Ok (s2, log')
    /\ log = Created a admin code m :: log'.
Proof.
  intros H. cbn [deliver inst sm_msg sm_reply] in H. destruct fresh as [|a fresh]; [discriminate|].
  apply bind_ok in H. destruct H as ([s1 more] & H1 & H). apply bind_ok in H. destruct H as ([s3 log'] & H2 & H).
  inversion H; subst. exists a, fresh, s1, more, log'. split; [reflexivity|]. split.
  - intros ->. destruct (reply_zero o s id) as (e & E). unfold addr in *. rewrite E in H1. discriminate.
  - split; [exact H1|]. split; [exact H2|reflexivity].
Qed.

Lemma deliver_finalize n o s f rest fresh :
  deliver (S n) o s (plain (WasmExecute (fo_self o) (ToFactory FaFinalizeDao) f) :: rest) fresh
  = ('(s1, more) <- finalize_dao o s (fo_self o) ;; deliver n o s1 (more ++ rest) fresh).
Proof. cbn [deliver plain sm_msg sm_reply]. rewrite N.eqb_refl. reflexivity. Qed.

Lemma deliver_nil n o s fresh : deliver n o s [] fresh = Ok (s, []).
Proof. destruct n; reflexivity. Qed.

(** * The period *)

Lemma check_period_ok g p u : check_period g p = Ok u <-> period_ok g p.
Proof.
  destruct u. unfold check_period, period_ok. destruct p; [tauto|].
  destruct (N.ltb_spec s (gc_vote_duration g)); split; intros X; try discriminate; try reflexivity; lia.
Qed.

(** * Reading the voters of a cw3 contract *)


Lemma add_voters_spec l : forall last acc total r,
  total < M128 ->
  (add_voters l last acc total = Ok r <->
   total + sum_weights l < M128
   /\ r = (match l with [] => last | _ => option_map fst (nth_error l (length l - 1)) end,
           acc ++ l, total + sum_weights l)).
Proof.
  induction l as [|[u w] l IH]; intros last acc total r Ht.
  - cbn [add_voters sum_weights fold_right]. rewrite app_nil_r, N.add_0_r. split.
    + intros H. inversion H. split; [exact Ht|reflexivity].
    + intros [_ ->]. reflexivity.
  - cbn [add_voters]. change (sum_weights ((u, w) :: l)) with (w + sum_weights l).
    unfold uint_add. destruct (N.ltb_spec (total + w) M128) as [Hl|Hl].
    + cbn [bind]. rewrite (IH (Some u) (acc ++ [(u, w)]) (total + w) r Hl). rewrite <- app_assoc, N.add_assoc.
      cbn [app length].
      assert (El : match l with [] => Some u | _ => option_map fst (nth_error l (length l - 1)) end
                   = option_map fst (nth_error ((u, w) :: l) (S (length l) - 1))).
      { destruct l as [|x l]; [reflexivity|]. cbn [length]. replace (S (S (length l)) - 1)%nat with (S (length l)) by lia.
        replace (S (length l) - 1)%nat with (length l) by lia. reflexivity. }
      rewrite El. reflexivity.
    + cbn [bind]. split; [discriminate|]. intros [H1 _]. lia.
Qed.

Lemma sum_weights_app a b : sum_weights (a ++ b) = sum_weights a + sum_weights b.
Proof.
  induction a as [|x a IH]; [reflexivity|]. cbn [app]. unfold sum_weights in *. cbn [fold_right]. rewrite IH. lia.
Qed.

Lemma read_voters_sound o c n : forall start acc total l t,
  total < M128 -> read_voters n o c start acc total = Ok (l, t) ->
  exists k w, voters_from (fun st => fo_voters o c st 100) start k w /\ (k <= n)%nat
    /\ total + sum_weights w < M128 /\ l = acc ++ w /\ t = total + sum_weights w.
Proof.
  induction n as [|n IH]; intros start acc total l t Ht H; [discriminate|].
  cbn [read_voters] in H. apply bind_ok in H. destruct H as (page & Hp & H).
  apply bind_ok in H. destruct H as ([[last acc'] total'] & Ha & H).
  apply add_voters_spec in Ha; [|exact Ht]. destruct Ha as [Hb Ha]. inversion Ha as [[E1 E2 E3]]. clear Ha.
  destruct page as [|x page] using rev_ind.
  - subst last. inversion H; subst. exists 1%nat, []. split; [apply voters_end; exact Hp|].
    split; [lia|]. split; [exact Hb|]. split; [reflexivity|]. reflexivity.
  - clear IHpage. destruct x as [u w].
    assert (El : last = Some u).
    { rewrite E1. rewrite app_length. cbn [length]. replace (length page + 1 - 1)%nat with (length page) by lia.
      rewrite nth_error_app2 by lia. rewrite Nat.sub_diag. destruct page; reflexivity. }
    subst last. rewrite El in H. clear El.
    assert (Ht' : total' < M128) by (rewrite E3; exact Hb).
    destruct (IH _ _ _ _ _ Ht' H) as (k & w' & H1 & H2 & H3 & H4 & H5).
    exists (S k), (page ++ [(u, w)] ++ w'). split; [eapply voters_page; [exact Hp|exact H1]|].
    split; [lia|]. assert (Es : sum_weights (page ++ [(u, w)] ++ w') = sum_weights (page ++ [(u, w)]) + sum_weights w').
    { rewrite app_assoc. apply sum_weights_app. }
    rewrite Es. subst acc' total'. split; [lia|]. split.
    + rewrite H4. rewrite <- !app_assoc. reflexivity.
    + rewrite H5. lia.
Qed.

Lemma read_voters_complete o c start k w :
  voters_from (fun st => fo_voters o c st 100) start k w ->
  forall n acc total, (k <= n)%nat -> total < M128 -> total + sum_weights w < M128 ->
  read_voters n o c start acc total = Ok (acc ++ w, total + sum_weights w).
Proof.
  induction 1 as [start Hp|start page u w k l Hp Hv IH]; intros n acc total Hk Ht Hs;
    (destruct n as [|n]; [lia|]); cbn [read_voters]; unfold VOTERS_LIMIT; rewrite Hp; cbn [bind].
  - cbn [add_voters bind]. change (sum_weights []) with 0. rewrite app_nil_r, N.add_0_r. reflexivity.
  - rewrite app_assoc, sum_weights_app in Hs.
    assert (Ha : add_voters (page ++ [(u, w)]) None acc total
                 = Ok (Some u, acc ++ page ++ [(u, w)], total + sum_weights (page ++ [(u, w)]))).
    { apply add_voters_spec; [exact Ht|]. split; [lia|]. f_equal. f_equal.
      rewrite app_length. cbn [length]. replace (length page + 1 - 1)%nat with (length page) by lia.
      rewrite nth_error_app2 by lia. rewrite Nat.sub_diag. destruct page; reflexivity. }
    rewrite Ha. cbn [bind]. rewrite IH; [|lia|lia|lia].
    rewrite !sum_weights_app, <- !app_assoc, !N.add_assoc. reflexivity.
Qed.

(** * The membership sub-message *)

(** A pending DAO whose enterprise, controller and so on are known. *)
Definition known (m : create_msg) (v : version_info) (en ctl gov cl op tr : addr) (w : list (N * N))
    (per : option duration) (a : option asset) (n : option addr) (mb fd at_ : option addr) : pending :=
  mk_pending (Some m) (Some v) a n (Some en) (Some w) (Some (dao_type_of (cm_membership m))) per mb (Some cl) fd (Some gov)
    (Some ctl) (Some op) (Some tr) at_.


(** The messages still to be delivered once the membership contract is to be instantiated. *)
Definition closing (o : fa_oracle) (m : create_msg) (v : version_info) (en ctl : addr) (w : list (N * N)) : list sub_msg :=
  [inst (Some en) (vi_funds v) (InitFunds ctl en w (cm_minimum m)) 6]
  ++ (match cm_attestation m with Some t => [inst None (vi_attestation v) (InitAttestation t) 11] | None => [] end)
  ++ [plain (WasmExecute (fo_self o) (ToFactory FaFinalizeDao) [])].

Definition closing_log (m : create_msg) (v : version_info) (d : made) (w : list (N * N)) : list effect :=
  [Created (d_funds d) (Some (d_enterprise d)) (vi_funds v)
     (InitFunds (d_controller d) (d_enterprise d) w (cm_minimum m))]
  ++ (match cm_attestation m, d_attestation d with
      | Some t, Some a => [Created a None (vi_attestation v) (InitAttestation t)]
      | _, _ => []
      end)
  ++ [Sent (WasmExecute (d_enterprise d) (ToEnterprise (EnFinalize (wiring d))) [])]
  ++ (match cm_treasuries m with
      | None | Some [] => []
      | Some l => [Sent (BankSend (d_outposts d) [(ULUNA, N.of_nat (length l))]);
                   Sent (WasmExecute (d_controller d) (ToController CDeployInitial) [])]
      end).

Lemma reply4 o s p a : a <> 0 -> factory_reply o (fa_put s p) 4 (ROk (Some a)) = Ok (fa_put s (pd_set_membership p a), []).
Proof. intros H. unfold factory_reply. rewrite reply_addr_some by exact H. reflexivity. Qed.
Lemma reply5 o s p a : a <> 0 -> factory_reply o (fa_put s p) 5 (ROk (Some a)) = Ok (fa_put s (pd_set_council p a), []).
Proof. intros H. unfold factory_reply. rewrite reply_addr_some by exact H. reflexivity. Qed.
Lemma reply6 o s p a : a <> 0 -> factory_reply o (fa_put s p) 6 (ROk (Some a)) = Ok (fa_put s (pd_set_funds p a), []).
Proof. intros H. unfold factory_reply. rewrite reply_addr_some by exact H. reflexivity. Qed.
Lemma reply7 o s p a : a <> 0 -> factory_reply o (fa_put s p) 7 (ROk (Some a)) = Ok (fa_put s (pd_set_governance p a), []).
Proof. intros H. unfold factory_reply. rewrite reply_addr_some by exact H. reflexivity. Qed.
Lemma reply9 o s p a : a <> 0 -> factory_reply o (fa_put s p) 9 (ROk (Some a)) = Ok (fa_put s (pd_set_outposts p a), []).
Proof. intros H. unfold factory_reply. rewrite reply_addr_some by exact H. reflexivity. Qed.
Lemma reply11 o s p a : a <> 0 -> factory_reply o (fa_put s p) 11 (ROk (Some a)) = Ok (fa_put s (pd_set_attestation p a), []).
Proof. intros H. unfold factory_reply. rewrite reply_addr_some by exact H. reflexivity. Qed.

Lemma deliver_end n o s (p : pending) (m : create_msg) fresh en tr gov ctl op fd mb cl :
  pd_enterprise p = Some en -> pd_treasury p = Some tr -> pd_governance p = Some gov -> pd_controller p = Some ctl ->
  pd_outposts p = Some op -> pd_funds p = Some fd -> pd_membership p = Some mb -> pd_council p = Some cl ->
  pd_msg p = Some m ->
  deliver (S (S (S (S n)))) o (fa_put s p) [plain (WasmExecute (fo_self o) (ToFactory FaFinalizeDao) [])] fresh
  = Ok (fa_put s no_pending,
        [Sent (WasmExecute en (ToEnterprise (EnFinalize (mk_components gov ctl tr op fd mb cl (pd_attestation p)))) [])]
        ++ (match cm_treasuries m with
            | None | Some [] => []
            | Some l => [Sent (BankSend op [(ULUNA, N.of_nat (length l))]);
                         Sent (WasmExecute ctl (ToController CDeployInitial) [])]
            end)).
Proof.
  intros H1 H2 H3 H4 H5 H6 H7 H8 H9. rewrite deliver_finalize. unfold finalize_dao, guard. rewrite N.eqb_refl.
  cbn [bind]. unfold fa_load. rewrite put_pending. cbn [ok_or bind]. rewrite H1, H2, H3, H4, H5, H6, H7, H8, H9.
  cbn [require ok_or bind]. rewrite put_put. destruct (cm_treasuries m) as [[|x l]|]; cbn [app deliver plain sm_msg sm_reply]; rewrite ?deliver_nil; reflexivity.
Qed.

Lemma deliver_closing n o s m v en ctl gov cl op tr w per a t mb fresh s2 log :
  deliver (S (S (S (S (S (S n)))))) o (fa_put s (known m v en ctl gov cl op tr w per a t (Some mb) None None))
    (closing o m v en ctl w) fresh = Ok (s2, log)
  <-> exists fd at_ rest, fresh = fd :: opt at_ ++ rest /\ fd <> 0 /\ (forall x, In x (opt at_) -> x <> 0)
      /\ is_some at_ = is_some (cm_attestation m)
      /\ s2 = fa_put s no_pending
      /\ log = closing_log m v (mk_made en ctl gov cl op tr t mb fd at_) w.
Proof.
  unfold closing. cbn [app]. split.
  - intros H. apply deliver_inst_inv in H. destruct H as (fd & fresh1 & s1 & more & log1 & -> & Hfd & Hr & H & ->).
    unfold addr in *. rewrite (reply6 o s _ fd Hfd) in Hr. inversion Hr; subst s1 more. clear Hr. cbn [app] in H.
    destruct (cm_attestation m) as [tx|] eqn:Em.
    + cbn [app] in H. apply deliver_inst_inv in H. destruct H as (at_ & fresh2 & s3 & more & log2 & -> & Hat & Hr & H & ->).
      unfold addr in *. rewrite (reply11 o s _ at_ Hat) in Hr. inversion Hr; subst s3 more. clear Hr. cbn [app] in H.
      erewrite deliver_end in H by (cbn; reflexivity). inversion H; subst s2 log2. clear H.
      exists fd, (Some at_), fresh2. split; [reflexivity|]. split; [exact Hfd|]. split; [intros x [<-|[]]; exact Hat|].
      split; [reflexivity|]. split; [reflexivity|]. unfold closing_log. cbn [d_attestation]. rewrite Em. reflexivity.
    + cbn [app] in H. erewrite deliver_end in H by (cbn; reflexivity). inversion H; subst s2 log1. clear H.
      exists fd, None, fresh1. split; [reflexivity|]. split; [exact Hfd|]. split; [intros x []|].
      split; [reflexivity|]. split; [reflexivity|]. unfold closing_log. cbn [d_attestation]. rewrite Em. reflexivity.
  - intros (fd & at_ & rest & -> & Hfd & Hat & Ea & -> & ->).
    erewrite deliver_inst by (apply reply6; exact Hfd). cbn [app].
    destruct (cm_attestation m) as [tx|] eqn:Em; destruct at_ as [at_|]; try discriminate.
    + cbn [opt app]. erewrite deliver_inst by (apply reply11; apply Hat; left; reflexivity). cbn [app].
      erewrite deliver_end by (cbn; reflexivity). cbn [bind]. unfold closing_log. rewrite Em. reflexivity.
    + cbn [opt app]. erewrite deliver_end by (cbn; reflexivity). cbn [bind]. unfold closing_log. rewrite Em. reflexivity.
Qed.

(** From the instantiation of the membership contract on. *)
Lemma deliver_member n o s m v en ctl gov cl op tr w per a t code i fresh s2 log :
  deliver (S (S (S (S (S (S (S n))))))) o (fa_put s (known m v en ctl gov cl op tr w per a t None None None))
    (inst (Some en) code (InitMember i) 4 :: closing o m v en ctl w) fresh = Ok (s2, log)
  <-> exists mb fd at_ rest, fresh = mb :: fd :: opt at_ ++ rest /\ mb <> 0 /\ fd <> 0 /\ (forall x, In x (opt at_) -> x <> 0)
      /\ is_some at_ = is_some (cm_attestation m)
      /\ s2 = fa_put s no_pending
      /\ log = Created mb (Some en) code (InitMember i) :: closing_log m v (mk_made en ctl gov cl op tr t mb fd at_) w.
Proof.
  split.
  - intros H. apply deliver_inst_inv in H. destruct H as (mb & fresh1 & s1 & more & log1 & -> & Hmb & Hr & H & ->).
    unfold addr in *. rewrite (reply4 o s _ mb Hmb) in Hr. inversion Hr; subst s1 more. clear Hr. cbn [app] in H.
    unfold pd_set_membership, known in H. cbn [pd_msg pd_version pd_asset pd_nft pd_enterprise pd_weights pd_type pd_period
      pd_membership pd_council pd_funds pd_governance pd_controller pd_outposts pd_treasury pd_attestation] in H.
    apply deliver_closing in H. destruct H as (fd & at_ & rest & -> & H1 & H2 & H3 & H4 & ->).
    exists mb, fd, at_, rest. tauto.
  - intros (mb & fd & at_ & rest & -> & Hmb & Hfd & Hat & Ea & -> & ->).
    erewrite deliver_inst by (apply reply4; exact Hmb). cbn [app].
    assert (X := proj2 (deliver_closing n o s m v en ctl gov cl op tr w per a t mb (fd :: opt at_ ++ rest)
      (fa_put s no_pending) (closing_log m v (mk_made en ctl gov cl op tr t mb fd at_) w))
      ltac:(exists fd, at_, rest; tauto)).
    unfold known in *. unfold pd_set_membership. cbn [pd_msg pd_version pd_asset pd_nft pd_enterprise pd_weights pd_type pd_period
      pd_membership pd_council pd_funds pd_governance pd_controller pd_outposts pd_treasury pd_attestation].
    rewrite X. reflexivity.
Qed.

Lemma deliver_member_ok n o s m v en ctl gov cl op tr w per a t code i mb fd at_ rest :
  mb <> 0 -> fd <> 0 -> (forall x, In x (opt at_) -> x <> 0) -> is_some at_ = is_some (cm_attestation m) ->
  deliver (S (S (S (S (S (S (S n))))))) o (fa_put s (known m v en ctl gov cl op tr w per a t None None None))
    (inst (Some en) code (InitMember i) 4 :: closing o m v en ctl w) (mb :: fd :: opt at_ ++ rest)
  = Ok (fa_put s no_pending,
        Created mb (Some en) code (InitMember i) :: closing_log m v (mk_made en ctl gov cl op tr t mb fd at_) w).
Proof. intros H1 H2 H3 H4. apply deliver_member. exists mb, fd, at_, rest. tauto. Qed.

(** * The membership contract of each kind *)

(** What the factory asks for when the treasury exists: its state and the sub-message. *)
Definition asked (c : fa_conf) (v : version_info) (en ctl tr : addr) (m : create_msg) (w : list (N * N))
  : option duration * sub_msg :=
  match cm_membership m with
  | NewDenom d p => (Some p, inst (Some en) (vi_denom v) (InitMember (IDenom en d p [ctl])) 4)
  | ImportCw20 t p => (Some p, inst (Some en) (vi_token v) (InitMember (IToken en t p [] [] [ctl])) 4)
  | NewCw20 b d mi p =>
      (Some p, inst (Some en) (fc_cw20 c) (InitCw20 (b ++ map (fun x => (tr, x)) (opt d)) (dflt en mi)) 2)
  | ImportCw721 n p => (Some p, inst (Some en) (vi_nft v) (InitMember (INft en (NCw721 n) p [] [] [ctl])) 4)
  | NewCw721 mi p => (Some p, inst (Some en) (fc_cw721 c) (InitCw721 (dflt en mi)) 3)
  | NewIcs721 n k p => (Some p, inst (Some en) (vi_nft v) (InitMember (INft en (NIcs721 n k) p [] [] [ctl])) 4)
  | ImportCw3 _ | NewMultisig _ => (None, inst (Some en) (vi_multisig v) (InitMember (IMultisig en (Some w) [] [] [ctl])) 4)
  end.

(** The checks made at that point: those of the period of a new token's membership come later. *)
Definition asked_ok (o : fa_oracle) (m : create_msg) (w : list (N * N)) : Prop :=
  match cm_membership m with
  | NewCw20 b d mi p =>
      d <> Some 0 /\ (forall x, In x b -> snd x <> 0) /\ (b <> [] \/ mi <> None) /\ w = councillors m
  | NewCw721 mi p => w = councillors m
  | _ => membership_accepted o m w
  end.

Lemma membership_iff o s m v en ctl gov cl op tr s' sub :
  membership o (fa_put s (known m v en ctl gov cl op tr (councillors m) None None None None None None)) tr
    (cm_membership m) [ctl] = Ok (s', sub)
  <-> exists w, asked_ok o m w
      /\ s' = fa_put s (known m v en ctl gov cl op tr w (fst (asked (fa_config s) v en ctl tr m w)) None None None None None)
      /\ sub = snd (asked (fa_config s) v en ctl tr m w).
Proof.
  unfold membership, asked_ok, membership_accepted, asked. destruct (cm_membership m) as [d p|t p|b d mi p|c p|mi p|c k p|c|l] eqn:Em.
  - unfold denom_membership, fa_load. rewrite put_pending. cbn [known ok_or require pd_enterprise pd_version pd_msg bind].
    split.
    + intros H. apply bind_ok in H. destruct H as (u & Hc & H). apply check_period_ok in Hc. inversion H; subst.
      exists (councillors m). split; [split; [exact Hc|reflexivity]|]. split; reflexivity.
    + intros (w & [Hc ->] & -> & ->). apply (check_period_ok _ _ tt) in Hc. rewrite Hc. reflexivity.
  - unfold import_cw20, addr_validate. destruct (N.eqb_spec t 0) as [->|Ht].
    { split; [discriminate|]. intros (w & (X & _) & _). contradiction. }
    cbn [bind]. destruct (fo_supply o t) as [supply|e] eqn:Es.
    2:{ split; [discriminate|]. intros (w & (_ & (x & X & _) & _) & _). discriminate. }
    cbn [bind]. unfold fa_load. rewrite put_pending. cbn [ok_or].
    assert (Hmint : forall u, (if supply =? 0 then b <- fo_minter o t;; guard b EInvalidArgument else Ok tt) = Ok u
                      <-> supply <> 0 \/ fo_minter o t = Ok true).
    { intros []. destruct (N.eqb_spec supply 0) as [E|E].
      - destruct (fo_minter o t) as [[|]|]; cbn [bind guard]; split; try (intros X; discriminate X); auto.
        + intros [X|X]; [contradiction|discriminate].
        + intros [X|X]; [contradiction|discriminate].
      - tauto. }
    split.
    + intros H. apply bind_ok in H. destruct H as (u & Hm & H). apply Hmint in Hm.
      cbn [bind] in H. unfold token_membership, fa_load in H. rewrite put_put, put_pending in H.
      cbn [known ok_or require pd_set_period pd_enterprise pd_version pd_msg bind] in H.
      apply bind_ok in H. destruct H as (x & H1 & H). apply bind_ok in H1. destruct H1 as (u' & Hc & H1).
      apply check_period_ok in Hc. inversion H1; subst x. inversion H; subst.
      exists (councillors m). split; [|split; reflexivity]. split; [exact Ht|]. split; [exists supply; tauto|]. split; [exact Hc|reflexivity].
    + intros (w & (_ & (x & X & Hm) & Hc & ->) & -> & ->). inversion X; subst x. apply (Hmint tt) in Hm. rewrite Hm.
      cbn [bind]. unfold token_membership, fa_load. rewrite put_put, put_pending. apply (check_period_ok _ _ tt) in Hc.
      cbn [known ok_or require pd_set_period pd_enterprise pd_version pd_msg bind]. rewrite Hc. reflexivity.
  - unfold new_cw20, fa_load. rewrite put_pending. cbn [known ok_or require pd_enterprise bind].
    assert (Hb : forallb (fun b0 => negb (snd b0 =? 0)) b = true <-> forall x, In x b -> snd x <> 0).
    { rewrite forallb_forall. split; intros H x Hx; specialize (H x Hx); destruct (N.eqb_spec (snd x) 0); try discriminate; try assumption; try reflexivity; contradiction. }
    assert (He : negb (match b with [] => true | _ => false end && negb (is_some mi)) = true <-> b <> [] \/ mi <> None).
    { destruct b, mi; cbn; split; intros H; try reflexivity; try discriminate; try (left; discriminate); try (right; discriminate).
      destruct H; contradiction. }
    split.
    + intros H. apply bind_ok in H. destruct H as (u1 & H1 & H). apply bind_ok in H. destruct H as (u2 & H2 & H).
      apply guard_ok in H2. apply bind_ok in H. destruct H as (u3 & H3 & H). apply guard_ok in H3.
      inversion H; subst. exists (councillors m). split.
      * split. { intros ->. discriminate H1. } split; [apply Hb; exact H2|]. split; [apply He; exact H3|reflexivity].
      * split; [reflexivity|]. cbn [snd]. destruct d; cbn [opt map]; rewrite ?app_nil_r; reflexivity.
    + intros (w & (H1 & H2 & H3 & ->) & -> & ->). apply Hb in H2. apply He in H3. rewrite H2, H3. cbn [guard bind fst snd].
      destruct d as [d|].
      * destruct (N.eqb_spec d 0) as [->|Hd]; [contradiction|]. cbn [negb guard bind opt map]. reflexivity.
      * cbn [bind opt map]. rewrite app_nil_r. reflexivity.
  - unfold import_cw721. destruct (fo_tokens o c) as [[]|e] eqn:Et.
    2:{ split; [discriminate|]. intros (w & (X & _) & _). discriminate. }
    cbn [bind]. unfold fa_load. rewrite put_pending. cbn [ok_or bind]. unfold nft_membership, fa_load. rewrite put_put, put_pending.
    cbn [known ok_or require pd_set_period pd_enterprise pd_version pd_msg bind]. split.
    + intros H. apply bind_ok in H. destruct H as (x & H1 & H). apply bind_ok in H1. destruct H1 as (u' & Hc & H1).
      apply check_period_ok in Hc. inversion H1; subst x. inversion H; subst.
      exists (councillors m). split; [|split; reflexivity]. split; [reflexivity|]. split; [exact Hc|reflexivity].
    + intros (w & (_ & Hc & ->) & -> & ->). apply (check_period_ok _ _ tt) in Hc. rewrite Hc. reflexivity.
  - unfold new_cw721, fa_load. rewrite put_pending. cbn [known ok_or require pd_enterprise bind]. split.
    + intros H. inversion H; subst. exists (councillors m). split; [reflexivity|]. split; reflexivity.
    + intros (w & -> & -> & ->). reflexivity.
  - unfold import_ics721, fa_load. rewrite put_pending. cbn [ok_or bind]. unfold nft_membership, fa_load. rewrite put_put, put_pending.
    cbn [known ok_or require pd_set_period pd_enterprise pd_version pd_msg bind]. split.
    + intros H. apply bind_ok in H. destruct H as (x & H1 & H). apply bind_ok in H1. destruct H1 as (u' & Hc & H1).
      apply check_period_ok in Hc. inversion H1; subst x. inversion H; subst.
      exists (councillors m). split; [|split; reflexivity]. split; [exact Hc|reflexivity].
    + intros (w & (Hc & ->) & -> & ->). apply (check_period_ok _ _ tt) in Hc. rewrite Hc. reflexivity.
  - unfold import_cw3, addr_validate. destruct (N.eqb_spec c 0) as [->|Hc0].
    { split; [discriminate|]. intros (w & (X & _) & _). contradiction. }
    cbn [bind]. destruct (fo_voters o c None 10) as [page|e] eqn:Ev.
    2:{ split; [discriminate|]. intros (w & (_ & (x & X) & _) & _). discriminate. }
    cbn [bind]. unfold multisig_membership, fa_load. rewrite put_pending. split.
    + intros H. apply bind_ok in H. destruct H as ([l t] & Hr & H). apply read_voters_sound in Hr; [|reflexivity].
      destruct Hr as (k & w & H1 & H2 & H3 & H4 & H5). cbn [app] in H4. subst l. rewrite N.add_0_l in *.
      apply bind_ok in H. destruct H as (u & Hg & H). apply guard_ok in Hg. rewrite H5 in Hg.
      inversion H; subst. exists w. split; [|split; reflexivity]. split; [exact Hc0|]. split; [exists page; reflexivity|].
      split; [exists k; tauto|]. split; [exact H3|]. destruct (N.eqb_spec (sum_weights w) 0); [discriminate|assumption].
    + intros (w & (_ & _ & (k & Hv & Hk) & Hs & Hn) & -> & ->).
      rewrite (read_voters_complete o c None k w Hv (fo_fuel o) [] 0 Hk eq_refl); [|rewrite N.add_0_l; exact Hs].
      cbn [bind app]. rewrite N.add_0_l. destruct (N.eqb_spec (sum_weights w) 0); [contradiction|]. reflexivity.
  - unfold multisig_membership, fa_load. rewrite put_pending. destruct l as [|x l].
    + split; [discriminate|]. intros (w & (X & _) & _). contradiction.
    + cbn [negb guard bind]. split.
      * intros H. inversion H; subst. exists (x :: l). split; [split; [discriminate|reflexivity]|]. split; reflexivity.
      * intros (w & (_ & ->) & -> & ->). reflexivity.
Qed.

Definition nonzero (l : list addr) : Prop := forall a, In a l -> a <> 0.

Definition with_dao (s : factory) (tr : addr) : factory :=
  mk_factory (fa_config s) (oset (fa_daos s) (fa_counter s) tr) (u64_add (fa_counter s) 1) (fa_assets s) (fa_nfts s)
    (fa_code_ids s) None.

Lemma reply10 o s m v en ctl gov cl op w tr : tr <> 0 ->
  factory_reply o (fa_put s (mk_pending (Some m) (Some v) None None (Some en) (Some w)
      (Some (dao_type_of (cm_membership m))) None None (Some cl) None (Some gov) (Some ctl) (Some op) None None)) 10 (ROk (Some tr))
  = ('(s', mb) <- membership o (fa_put (with_dao s tr) (known m v en ctl gov cl op tr w None None None None None None)) tr
        (cm_membership m) [ctl] ;;
     p <- fa_load s' ;; v <- require (pd_version p) ;; en <- require (pd_enterprise p) ;;
     Ok (s', [mb; inst (Some en) (vi_funds v) (InitFunds ctl en (dflt [] (pd_weights p)) (cm_minimum m)) 6])).
Proof. intros H. unfold factory_reply. rewrite reply_addr_some by exact H. reflexivity. Qed.

Lemma reply2 o s m v en ctl gov cl op w tr p t : t <> 0 ->
  factory_reply o (fa_put s (known m v en ctl gov cl op tr w (Some p) None None None None None)) 2 (ROk (Some t))
  = (_ <- check_period (cm_gov m) p ;;
     Ok (fa_put s (known m v en ctl gov cl op tr w (Some p) (Some (Cw20 t)) None None None None),
         [inst (Some en) (vi_token v) (InitMember (IToken en t p [] [] [ctl])) 4])).
Proof.
  intros H. unfold factory_reply. rewrite reply_addr_some by exact H. cbn [bind].
  unfold reply_cw20, fa_load. rewrite put_pending. cbn [known ok_or require pd_period pd_controller bind].
  unfold token_membership, fa_load. rewrite put_put, put_pending.
  cbn [known ok_or require pd_enterprise pd_version pd_msg pd_set_asset bind].
  destruct (check_period (cm_gov m) p); reflexivity.
Qed.

Lemma reply3 o s m v en ctl gov cl op w tr p t : t <> 0 ->
  factory_reply o (fa_put s (known m v en ctl gov cl op tr w (Some p) None None None None None)) 3 (ROk (Some t))
  = (_ <- check_period (cm_gov m) p ;;
     Ok (fa_put s (known m v en ctl gov cl op tr w (Some p) None (Some t) None None None),
         [inst (Some en) (vi_nft v) (InitMember (INft en (NCw721 t) p [] [] [ctl])) 4])).
Proof.
  intros H. unfold factory_reply. rewrite reply_addr_some by exact H. cbn [bind].
  unfold reply_cw721, fa_load. rewrite put_pending. cbn [known ok_or require pd_period pd_controller bind].
  unfold nft_membership, fa_load. rewrite put_put, put_pending.
  cbn [known ok_or require pd_enterprise pd_version pd_msg pd_set_nft bind].
  destruct (check_period (cm_gov m) p); reflexivity.
Qed.

Lemma closing_token m v en ctl gov cl op tr t t' mb fd at_ w :
  closing_log m v (mk_made en ctl gov cl op tr t mb fd at_) w = closing_log m v (mk_made en ctl gov cl op tr t' mb fd at_) w.
Proof. reflexivity. Qed.

(** From the membership contract on, for each kind. *)
Lemma deliver_membership n o s m v en ctl gov cl op tr w fresh s2 log :
  asked_ok o m w ->
  (deliver (S (S (S (S (S (S (S (S n)))))))) o
     (fa_put s (known m v en ctl gov cl op tr w (fst (asked (fa_config s) v en ctl tr m w)) None None None None None))
     (snd (asked (fa_config s) v en ctl tr m w) :: closing o m v en ctl w) fresh = Ok (s2, log)
   <-> exists tok mb fd at_ rest, fresh = opt tok ++ [mb; fd] ++ opt at_ ++ rest
       /\ nonzero (opt tok ++ [mb; fd] ++ opt at_)
       /\ is_some tok = wants_token (cm_membership m) /\ is_some at_ = is_some (cm_attestation m)
       /\ membership_accepted o m w
       /\ s2 = fa_put s no_pending
       /\ log = membership_log (fa_config s) v (cm_membership m) w (mk_made en ctl gov cl op tr tok mb fd at_)
                ++ closing_log m v (mk_made en ctl gov cl op tr tok mb fd at_) w).
Proof.
  intros Hask.
  assert (Plain : forall per code i,
    membership_accepted o m w -> wants_token (cm_membership m) = false ->
    (forall tok mb fd at_, membership_log (fa_config s) v (cm_membership m) w (mk_made en ctl gov cl op tr tok mb fd at_)
        = [Created mb (Some en) code (InitMember i)]) ->
    (deliver (S (S (S (S (S (S (S (S n)))))))) o (fa_put s (known m v en ctl gov cl op tr w per None None None None None))
       (inst (Some en) code (InitMember i) 4 :: closing o m v en ctl w) fresh = Ok (s2, log)
     <-> exists tok mb fd at_ rest, fresh = opt tok ++ [mb; fd] ++ opt at_ ++ rest
       /\ nonzero (opt tok ++ [mb; fd] ++ opt at_)
       /\ is_some tok = wants_token (cm_membership m) /\ is_some at_ = is_some (cm_attestation m)
       /\ membership_accepted o m w
       /\ s2 = fa_put s no_pending
       /\ log = membership_log (fa_config s) v (cm_membership m) w (mk_made en ctl gov cl op tr tok mb fd at_)
                ++ closing_log m v (mk_made en ctl gov cl op tr tok mb fd at_) w)).
  { intros per code i Ha Hw Hl. rewrite deliver_member. split.
    - intros (mb & fd & at_ & rest & -> & H1 & H2 & H3 & H4 & -> & ->). exists None, mb, fd, at_, rest.
      split; [reflexivity|]. split; [intros x [<-|[<-|Hx]]; [exact H1|exact H2|apply H3; exact Hx]|].
      split; [rewrite Hw; reflexivity|]. split; [exact H4|]. split; [exact Ha|]. split; [reflexivity|]. rewrite Hl. reflexivity.
    - intros (tok & mb & fd & at_ & rest & -> & Hn & H1 & H2 & _ & -> & ->). rewrite Hw in H1.
      destruct tok; [discriminate|]. exists mb, fd, at_, rest. split; [reflexivity|].
      split; [apply Hn; left; reflexivity|]. split; [apply Hn; right; left; reflexivity|].
      split; [intros x Hx; apply Hn; right; right; exact Hx|]. split; [exact H2|]. split; [reflexivity|]. rewrite Hl. reflexivity. }
  unfold asked, asked_ok in *. destruct (cm_membership m) as [d p|t p|b d mi p|c p|mi p|c k p|c|l] eqn:Em; cbn [fst snd].
  - apply Plain; [exact Hask|reflexivity|reflexivity].
  - apply Plain; [exact Hask|reflexivity|reflexivity].
  - clear Plain. split.
    + intros H. apply deliver_inst_inv in H. destruct H as (t & fresh1 & s1 & more & log1 & -> & Ht & Hr & H & ->).
      pose proof (eq_trans (eq_sym (reply2 o s m v en ctl gov cl op w tr p t Ht)) Hr) as Hr'. clear Hr. rename Hr' into Hr.
      apply bind_ok in Hr. destruct Hr as (u & Hc & Hr). inversion Hr; subst s1 more. clear Hr. cbn [app] in H.
      apply deliver_member in H. destruct H as (mb & fd & at_ & rest & -> & H1 & H2 & H3 & H4 & -> & ->).
      exists (Some t), mb, fd, at_, rest. split; [reflexivity|].
      split; [intros x [<-|[<-|[<-|Hx]]]; [exact Ht|exact H1|exact H2|apply H3; exact Hx]|].
      split; [reflexivity|]. split; [exact H4|]. split.
      * unfold membership_accepted. rewrite Em. apply check_period_ok in Hc. tauto.
      * split; [reflexivity|]. reflexivity.
    + intros (tok & mb & fd & at_ & rest & -> & Hn & H1 & H2 & Ha & -> & ->). destruct tok as [t|]; [|discriminate].
      unfold membership_accepted in Ha. rewrite Em in Ha. destruct Ha as (_ & _ & _ & Hc & _).
      apply (check_period_ok _ _ tt) in Hc. cbn [opt app].
      erewrite deliver_inst by (rewrite reply2 by (apply Hn; left; reflexivity); rewrite Hc; reflexivity). cbn [app].
      rewrite deliver_member_ok; [|apply Hn; right; left; reflexivity|apply Hn; right; right; left; reflexivity
        |intros x Hx; apply Hn; right; right; right; exact Hx|exact H2].
      cbn [bind]. reflexivity.
  - apply Plain; [exact Hask|reflexivity|reflexivity].
  - clear Plain. split.
    + intros H. apply deliver_inst_inv in H. destruct H as (t & fresh1 & s1 & more & log1 & -> & Ht & Hr & H & ->).
      pose proof (eq_trans (eq_sym (reply3 o s m v en ctl gov cl op w tr p t Ht)) Hr) as Hr'. clear Hr. rename Hr' into Hr.
      apply bind_ok in Hr. destruct Hr as (u & Hc & Hr). inversion Hr; subst s1 more. clear Hr. cbn [app] in H.
      apply deliver_member in H. destruct H as (mb & fd & at_ & rest & -> & H1 & H2 & H3 & H4 & -> & ->).
      exists (Some t), mb, fd, at_, rest. split; [reflexivity|].
      split; [intros x [<-|[<-|[<-|Hx]]]; [exact Ht|exact H1|exact H2|apply H3; exact Hx]|].
      split; [reflexivity|]. split; [exact H4|]. split.
      * unfold membership_accepted. rewrite Em. apply check_period_ok in Hc. tauto.
      * split; [reflexivity|]. reflexivity.
    + intros (tok & mb & fd & at_ & rest & -> & Hn & H1 & H2 & Ha & -> & ->). destruct tok as [t|]; [|discriminate].
      unfold membership_accepted in Ha. rewrite Em in Ha. destruct Ha as (Hc & _).
      apply (check_period_ok _ _ tt) in Hc. cbn [opt app].
      erewrite deliver_inst by (rewrite reply3 by (apply Hn; left; reflexivity); rewrite Hc; reflexivity). cbn [app].
      rewrite deliver_member_ok; [|apply Hn; right; left; reflexivity|apply Hn; right; right; left; reflexivity
        |intros x Hx; apply Hn; right; right; right; exact Hx|exact H2].
      cbn [bind]. reflexivity.
  - apply Plain; [exact Hask|reflexivity|reflexivity].
  - apply Plain; [exact Hask|reflexivity|reflexivity].
  - apply Plain; [exact Hask|reflexivity|reflexivity].
Qed.

(** * The whole creation *)

Lemma deliver_update n o s a b rest fresh :
  deliver (S n) o s (plain (WasmUpdateAdmin a b) :: rest) fresh
  = ('(s1, log) <- deliver n o s rest fresh ;; Ok (s1, Sent (WasmUpdateAdmin a b) :: log)).
Proof. reflexivity. Qed.

Definition pend (m : create_msg) (v : version_info) (en ctl : option addr) (w : option (list (N * N)))
    (gov cl op : option addr) : pending :=
  mk_pending (Some m) (Some v) None None en w (Some (dao_type_of (cm_membership m))) None None cl None gov ctl op None None.

Lemma reply1 o s m v en : en <> 0 ->
  factory_reply o (fa_put s (pend m v None None None None None None)) 1 (ROk (Some en))
  = Ok (fa_put s (pend m v (Some en) None None None None None),
        [plain (WasmUpdateAdmin en en);
         inst (Some en) (vi_controller v)
           (InitController en (dao_type_of (cm_membership m)) (cm_gov m) (cm_council m) (cm_treasuries m)) 8]).
Proof. intros H. unfold factory_reply. rewrite reply_addr_some by exact H. reflexivity. Qed.

Definition early (m : create_msg) (v : version_info) (en ctl : addr) : list sub_msg :=
  [inst (Some en) (vi_governance v) (InitGovernance ctl) 7;
   inst (Some en) (vi_multisig v) (InitMember (IMultisig en (Some (councillors m)) [] [] [ctl])) 5;
   inst (Some en) (vi_outposts v) (InitOutposts en) 9;
   inst (Some en) (vi_treasury v) (InitTreasury ctl (Some (dflt [] (cm_assets m))) (Some (dflt [] (cm_nfts m)))) 10].

Definition late (o : fa_oracle) (m : create_msg) (v : version_info) : list sub_msg :=
  (match cm_attestation m with Some t => [inst None (vi_attestation v) (InitAttestation t) 11] | None => [] end)
  ++ [plain (WasmExecute (fo_self o) (ToFactory FaFinalizeDao) [])].

Lemma reply8 o s m v en ctl : ctl <> 0 ->
  factory_reply o (fa_put s (pend m v (Some en) None None None None None)) 8 (ROk (Some ctl))
  = Ok (fa_put s (pend m v (Some en) (Some ctl) (Some (councillors m)) None None None), early m v en ctl ++ late o m v).
Proof.
  intros H. unfold factory_reply. rewrite reply_addr_some by exact H. cbn [bind].
  unfold reply_controller, early, late, pend. unfold fa_load. rewrite put_pending.
  cbn [ok_or require bind pd_msg pd_version pd_enterprise pd_asset pd_nft]. rewrite !app_nil_r.
  unfold multisig_membership, fa_load. rewrite put_pending. reflexivity.
Qed.

Lemma reply7' o s m v en ctl w a : a <> 0 ->
  factory_reply o (fa_put s (pend m v en ctl w None None None)) 7 (ROk (Some a))
  = Ok (fa_put s (pend m v en ctl w (Some a) None None), []).
Proof. intros H. rewrite reply7 by exact H. reflexivity. Qed.
Lemma reply5' o s m v en ctl w g a : a <> 0 ->
  factory_reply o (fa_put s (pend m v en ctl w g None None)) 5 (ROk (Some a))
  = Ok (fa_put s (pend m v en ctl w g (Some a) None), []).
Proof. intros H. rewrite reply5 by exact H. reflexivity. Qed.
Lemma reply9' o s m v en ctl w g c a : a <> 0 ->
  factory_reply o (fa_put s (pend m v en ctl w g c None)) 9 (ROk (Some a))
  = Ok (fa_put s (pend m v en ctl w g c (Some a)), []).
Proof. intros H. rewrite reply9 by exact H. reflexivity. Qed.

Lemma reply10' o s m v en ctl gov cl op tr s1 more : tr <> 0 ->
  (factory_reply o (fa_put s (pend m v (Some en) (Some ctl) (Some (councillors m)) (Some gov) (Some cl) (Some op))) 10
     (ROk (Some tr)) = Ok (s1, more)
   <-> exists w, asked_ok o m w
       /\ s1 = fa_put (with_dao s tr) (known m v en ctl gov cl op tr w (fst (asked (fa_config s) v en ctl tr m w)) None None None None None)
       /\ more = [snd (asked (fa_config s) v en ctl tr m w);
                  inst (Some en) (vi_funds v) (InitFunds ctl en w (cm_minimum m)) 6]).
Proof.
  intros H. unfold pend. rewrite reply10 by exact H. split.
  - intros X. apply bind_ok in X. destruct X as ([s' mb] & Hm & X). apply membership_iff in Hm.
    destruct Hm as (w & Hw & -> & ->). exists w. split; [exact Hw|]. unfold fa_load in X. rewrite put_pending in X.
    cbn [ok_or bind known pd_version pd_enterprise pd_weights require dflt] in X. inversion X. split; reflexivity.
  - intros (w & Hw & -> & ->).
    rewrite (proj2 (membership_iff o (with_dao s tr) m v en ctl gov cl op tr _ _) (ex_intro _ w (conj Hw (conj eq_refl eq_refl)))).
    reflexivity.
Qed.

Lemma creation_run n o s m v fresh s2 log :
  deliver (S (S (S (S (S (S (S (S (S (S (S (S (S (S (S n))))))))))))))) o (fa_put s (pend m v None None None None None None))
    [inst (Some (fo_self o)) (vi_enterprise v)
       (InitEnterprise (fo_self o) (fc_versioning (fa_config s)) None (dao_type_of (cm_membership m)) (vi_version v) (cm_metadata m)) 1]
    fresh = Ok (s2, log)
  <-> exists w d, membership_accepted o m w /\ assigned m fresh d
      /\ s2 = fa_put (with_dao s (d_treasury d)) no_pending
      /\ log = creation_log (fo_self o) (fa_config s) v m w d.
Proof.
  split.
  - intros H. apply deliver_inst_inv in H. destruct H as (en & f1 & s1 & more & l1 & -> & Hen & Hr & H & ->).
    pose proof (eq_trans (eq_sym (reply1 o s m v en Hen)) Hr) as E; clear Hr; inversion E; subst s1 more; clear E; cbn [app] in H.
    rewrite deliver_update in H. apply bind_ok in H. destruct H as ([s3 l3] & H & E). inversion E; subst s3 l1. clear E.
    apply deliver_inst_inv in H. destruct H as (ctl & f2 & s1 & more & l4 & -> & Hctl & Hr & H & ->).
    pose proof (eq_trans (eq_sym (reply8 o s m v en ctl Hctl)) Hr) as E; clear Hr; inversion E; subst s1 more; clear E; cbn [app early] in H.
    apply deliver_inst_inv in H. destruct H as (gov & f3 & s1 & more & l5 & -> & Hgov & Hr & H & ->).
    pose proof (eq_trans (eq_sym (reply7' o s m v _ _ _ gov Hgov)) Hr) as E; clear Hr; inversion E; subst s1 more; clear E; cbn [app early] in H.
    apply deliver_inst_inv in H. destruct H as (cl & f4 & s1 & more & l6 & -> & Hcl & Hr & H & ->).
    pose proof (eq_trans (eq_sym (reply5' o s m v _ _ _ _ cl Hcl)) Hr) as E; clear Hr; inversion E; subst s1 more; clear E; cbn [app early] in H.
    apply deliver_inst_inv in H. destruct H as (op & f5 & s1 & more & l7 & -> & Hop & Hr & H & ->).
    pose proof (eq_trans (eq_sym (reply9' o s m v _ _ _ _ _ op Hop)) Hr) as E; clear Hr; inversion E; subst s1 more; clear E; cbn [app early] in H.
    apply deliver_inst_inv in H. destruct H as (tr & f6 & s1 & more & l8 & -> & Htr & Hr & H & ->).
    apply reply10' in Hr; [|exact Htr]. destruct Hr as (w & Hw & -> & ->). cbn [app] in H. rewrite app_nil_r in H.
    assert (Ha := Hw).
    pose proof (proj1 (deliver_membership _ o (with_dao s tr) m v en ctl gov cl op tr w f6 s2 l8 Hw) H) as X.
    destruct X as (tok & mb & fd & at_ & rest & -> & Hn & H1 & H2 & H3 & -> & ->).
    exists w, (mk_made en ctl gov cl op tr tok mb fd at_). split; [exact H3|]. split.
    + split; [exists rest; cbn [contracts d_enterprise d_controller d_governance d_council d_outposts d_treasury d_token d_membership d_funds d_attestation app];
        unfold contracts; cbn [d_enterprise d_controller d_governance d_council d_outposts d_treasury d_token d_membership d_funds d_attestation app];
        rewrite <- !app_assoc; reflexivity|].
      split; [|split; [exact H1|exact H2]].
      intros x Hx. unfold contracts in Hx. cbn [d_enterprise d_controller d_governance d_council d_outposts d_treasury d_token d_membership d_funds d_attestation app] in Hx.
      destruct Hx as [<-|[<-|[<-|[<-|[<-|[<-|Hx]]]]]]; try assumption. apply Hn. exact Hx.
    + split; reflexivity.
  - intros (w & d & Ha & ((rest & ->) & Hn & H1 & H2) & -> & ->). destruct d as [en ctl gov cl op tr tok mb fd at_].
    cbn [d_token d_attestation d_treasury] in *. unfold contracts in *.
    cbn [d_enterprise d_controller d_governance d_council d_outposts d_treasury d_token d_membership d_funds d_attestation app] in *.
    assert (Nen : en <> 0) by (apply Hn; auto 10 with datatypes). assert (Nctl : ctl <> 0) by (apply Hn; auto 10 with datatypes).
    assert (Ngov : gov <> 0) by (apply Hn; auto 10 with datatypes). assert (Ncl : cl <> 0) by (apply Hn; auto 10 with datatypes).
    assert (Nop : op <> 0) by (apply Hn; auto 10 with datatypes). assert (Ntr : tr <> 0) by (apply Hn; auto 10 with datatypes).
    assert (Nl : nonzero (opt tok ++ [mb; fd] ++ opt at_)).
    { intros x Hx. apply Hn. do 6 right. exact Hx. }
    erewrite deliver_inst by (apply reply1; exact Nen). cbn [app]. rewrite deliver_update.
    erewrite deliver_inst by (apply reply8; exact Nctl). cbn [app early].
    erewrite deliver_inst by (apply reply7'; exact Ngov). cbn [app].
    erewrite deliver_inst by (apply reply5'; exact Ncl). cbn [app].
    erewrite deliver_inst by (apply reply9'; exact Nop). cbn [app].
    assert (Hk : asked_ok o m w).
    { unfold asked_ok. unfold membership_accepted in Ha. unfold membership_accepted. destruct (cm_membership m); try exact Ha; tauto. }
    erewrite deliver_inst by (apply reply10'; [exact Ntr|exists w; split; [exact Hk|split; reflexivity]]). cbn [app]. rewrite app_nil_r.
    pose proof (proj2 (deliver_membership n o (with_dao s tr) m v en ctl gov cl op tr w ((opt tok ++ mb :: fd :: opt at_) ++ rest)
      (fa_put (with_dao s tr) no_pending)
      (membership_log (fa_config s) v (cm_membership m) w (mk_made en ctl gov cl op tr tok mb fd at_)
                ++ closing_log m v (mk_made en ctl gov cl op tr tok mb fd at_) w) Hk)) as X.
    specialize (X ltac:(exists tok, mb, fd, at_, rest; split; [rewrite <- !app_assoc; reflexivity|]; tauto)).
    match type of X with ?L = _ => match goal with |- context [deliver ?k ?a ?b ?c ?f] => change (deliver k a b c f) with L end end.
    rewrite X. reflexivity.
Qed.

Lemma creation_iff o s sender m v fresh s2 log :
  fa_tx s (mk_fa_call o sender (FaCreate m v) fresh) = Ok (s2, log)
  <-> exists vi w d, version_asked o s v = Ok vi /\ membership_accepted o m w /\ assigned m fresh d
      /\ s2 = fa_put (with_dao s (d_treasury d)) no_pending
      /\ log = creation_log (fo_self o) (fa_config s) vi m w d.
Proof.
  unfold fa_tx. cbn [fl_oracle fl_sender fl_msg fl_fresh factory_execute]. unfold create_dao.
  fold (version_asked o s v). destruct (version_asked o s v) as [vi|e] eqn:Ev.
  - cbn [bind]. unfold create_with. cbn [bind]. unfold CREATION_STEPS.
    pose proof (creation_run 5 o s m vi fresh s2 log) as X. split.
    + intros H. apply X in H. destruct H as (w & d & H). exists vi, w, d. split; [reflexivity|exact H].
    + intros (vi' & w & d & E & H). inversion E; subst vi'. apply X. exists w, d. exact H.
  - split; [discriminate|]. intros (vi & w & d & E & _). discriminate.
Qed.
