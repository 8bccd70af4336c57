(** A chain with honest ledgers, and DAOs on it: one staking cw20 token 90, one staking NFTs of collection 91. *)
From Verif Require Import Base OMap OMapLemmas Assets PollModel PollSpec FundsModel FundsSpec MemberModel MemberSpec Msgs ControllerModel
  ControllerSpec TreasuryModel EnterpriseModel OutpostsModel WorldModel WorldSpec TreasuryExamples WorldExamples LedgerSpec.

(** Balances of native coins and cw20 tokens, owners of NFTs. *)
Record book := mk_book { bk_bank : N -> N -> N; bk_cw20 : N -> N -> N; bk_nft : N -> N -> N }.

Definition moved (f : N -> N -> N) (k from to n : N) : res (N -> N -> N) :=
  if f k from <? n then Err EStd
  else Ok (fun k' u => if k' =? k then (let b := f k u - (if u =? from then n else 0) in b + (if u =? to then n else 0)) else f k' u).

Definition pay_coins (x : book) (s to : addr) (coins : list coin) : res book :=
  b <- fold_res (fun b c => moved b (fst c) s to (snd c)) (bk_bank x) coins ;; Ok (mk_book b (bk_cw20 x) (bk_nft x)).

(** the notification a token sends with the payload of a send *)
Definition told_by (h : cw20_hook) (from n : N) : wasm_msg :=
  match h with
  | HookMember h => ToMembership (TokenMsg (TReceive n h))
  | HookDistribute => ToFunds (FReceive n true)
  | HookProposal l o => ToController (CReceive from n (Some (l, o)))
  | HookOther => ToController (CReceive from n None)
  end.

(** users (10 and above) let the controller (3) take their NFTs *)
Definition chain : outside book :=
  mk_outside
    (fun w _ s to m _ =>
       let x := w_ext w in
       match m with
       | ToCw20 (Cw20Transfer r n) => c <- moved (bk_cw20 x) to s r n ;; Ok (mk_book (bk_bank x) c (bk_nft x), [], None)
       | ToCw20 (Cw20Send r n h) =>
           c <- moved (bk_cw20 x) to s r n ;;
           Ok (mk_book (bk_bank x) c (bk_nft x), [plain (WasmExecute r (told_by h s n) [])], None)
       | ToCw721 (Cw721Transfer r k) =>
           _ <- guard ((bk_nft x to k =? s) || ((s =? 3) && (10 <=? bk_nft x to k))) EUnauthorized ;;
           Ok (mk_book (bk_bank x) (bk_cw20 x) (fun c k' => if (c =? to) && (k' =? k) then r else bk_nft x c k'), [], None)
       | ToCw721 (Cw721Send r k h) =>
           _ <- guard (bk_nft x to k =? s) EUnauthorized ;;
           Ok (mk_book (bk_bank x) (bk_cw20 x) (fun c k' => if (c =? to) && (k' =? k) then r else bk_nft x c k'),
               [plain (WasmExecute r (ToMembership (NftMsg (NReceive k h))) [])], None)
       | _ => Ok (x, [], None)
       end)
    (fun w _ _ _ _ => Ok (w_ext w, []))
    (fun w _ s m => match m with BankSend to coins => x <- pay_coins (w_ext w) s to coins ;; Ok (x, None) | _ => Ok (w_ext w, None) end)
    pay_coins
    (fun _ _ u => Ok (negb (u =? 666)))
    (fun x c k => Ok (bk_nft x c k, []))
    (fun _ _ _ => Ok None) (fun _ _ => []) (fun _ _ _ _ => Err EStd) (fun _ _ _ => Err EStd) (fun _ _ => Ok 9) (fun _ _ _ => Err EStd) (fun _ _ => None).

(** What [u] has of [h]. *)
Definition has (u : addr) (h : holding) (x : book) : N :=
  match h with
  | HAmount (Native d) => bk_bank x d u
  | HAmount (Cw20 t) => bk_cw20 x t u
  | HAmount (Cw1155 _ _) => 0
  | HNft c k => if bk_nft x c k =? u then 1 else 0
  end.

Lemma moved_ok f k from to n f' u : moved f k from to n = Ok f' ->
  (forall k', k' <> k -> f' k' u = f k' u) /\ f' k u + (if from =? u then n else 0) = f k u + (if to =? u then n else 0).
Proof.
  unfold moved. destruct (N.ltb_spec (f k from) n) as [|H]; [discriminate|]. intros E. inversion E; subst; clear E. split.
  - intros k' Hk. apply N.eqb_neq in Hk. rewrite Hk. reflexivity.
  - rewrite N.eqb_refl, (N.eqb_sym from u), (N.eqb_sym to u). destruct (N.eqb_spec u from) as [Eu|]; [rewrite Eu in *|]; destruct (u =? to); destruct (from =? to); lia.
Qed.

Lemma coins_moved coins s to u : forall b b', fold_res (fun b c => moved b (fst c) s to (snd c)) b coins = Ok b' ->
  forall d, b' d u + (if s =? u then in_coins (HAmount (Native d)) coins else 0) = b d u + (if to =? u then in_coins (HAmount (Native d)) coins else 0).
Proof.
  induction coins as [|c coins IH]; intros b b' H d; cbn [fold_res] in H.
  - inversion H; subst. cbn. destruct (s =? u), (to =? u); lia.
  - apply bind_ok in H. destruct H as (b1 & H1 & H). destruct (moved_ok _ _ _ _ _ _ u H1) as (M1 & M2). specialize (IH _ _ H d).
    cbn [in_coins] in *. rewrite lsum_cons. destruct (N.eqb_spec (fst c) d) as [<-|Hd].
    + destruct (s =? u), (to =? u); lia.
    + assert (Hd' : d <> fst c) by congruence. specialize (M1 d Hd'). destruct (s =? u), (to =? u); lia.
Qed.

Lemma paid_coins x s to coins x' u h : pay_coins x s to coins = Ok x' ->
  has u h x' + (if s =? u then in_coins h coins else 0) = has u h x + (if to =? u then in_coins h coins else 0).
Proof.
  unfold pay_coins. intros H. apply bind_ok in H. destruct H as (b & Hb & H). inversion H; subst.
  destruct h as [[d|t|t i]|c k]; cbn [has bk_bank bk_cw20 bk_nft]; [exact (coins_moved _ _ _ _ _ _ Hb d)|cbn [in_coins]; destruct (s =? u), (to =? u); lia..].
Qed.

Lemma told_none u h s r hk from n : r <> u -> reports u h s (WasmExecute r (told_by hk from n) []) = 0.
Proof. intros H. unfold reports. apply N.eqb_neq in H. rewrite H. reflexivity. Qed.

Lemma chain_fair (fit : cosmos_msg -> Prop) u h : u < 10 ->
  (forall t r n hk coins, ~ fit (WasmExecute t (ToCw20 (Cw20Send r n hk)) coins)) ->
  (forall c r k hk coins, ~ fit (WasmExecute c (ToCw721 (Cw721Send r k hk)) coins)) -> honest_to fit chain u h (has u h).
Proof.
  intros Hu F1 F2. split.
  - intros x s to coins x' H. rewrite <- (paid_coins _ _ _ _ _ u h H). lia.
  - intros w e s to m coins x subs d H HO. cbn [x_exec chain] in H.
    destruct m as [| | | | | | |m|m| | | |]; try (inversion H; subst; unfold lsum; cbn [fold_right]; lia).
    + destruct m as [r n|r n hk].
      * apply bind_ok in H. destruct H as (c & Hc & H). inversion H; subst. destruct (moved_ok _ _ _ _ _ _ u Hc) as (M1 & M2).
        unfold lsum. cbn [fold_right].
        destruct h as [[dn|t|t i]|co k]; cbn [has bk_bank bk_cw20 bk_nft sends]; try lia.
        destruct (N.eqb_spec to t) as [->|Ht]; [destruct (s =? u), (r =? u); lia|]. rewrite M1 by congruence. lia.
      * assert (Hs : s <> u) by (intros ->; exact (F1 _ _ _ _ _ (HO eq_refl))). apply N.eqb_neq in Hs. rewrite Hs.
        apply bind_ok in H. destruct H as (c & Hc & H). inversion H; subst. destruct (moved_ok _ _ _ _ _ _ u Hc) as (M1 & M2). rewrite Hs in M2.
        unfold lsum, plain. cbn [fold_right sm_msg]. unfold reports.
        destruct h as [[dn|t|t i]|co k]; cbn [has bk_bank bk_cw20 bk_nft]; try (destruct (r =? u); destruct hk; cbn; lia).
        destruct (N.eqb_spec to t) as [->|Ht].
        -- destruct (r =? u); [|lia]. destruct hk; cbn [told_by]; lia.
        -- rewrite M1 by congruence. destruct (r =? u); [|lia]. destruct hk; cbn; lia.
    + destruct m as [r k|r k hk|r k].
      * apply bind_ok in H. destruct H as (? & Hg & H). apply guard_ok in Hg. inversion H; subst.
        unfold lsum. cbn [fold_right].
        destruct h as [[dn|t|t i]|co k']; cbn [has bk_bank bk_cw20 bk_nft sends]; try lia.
        rewrite (N.eqb_sym to co), (N.eqb_sym k k'). destruct (N.eqb_spec co to) as [->|]; cbn [andb]; [|lia]. destruct (N.eqb_spec k' k) as [->|]; [|lia].
        destruct (N.eqb_spec (bk_nft (w_ext w) to k) u) as [Eo|]; [|destruct (r =? u); lia]. rewrite Eo in Hg.
        apply orb_prop in Hg. rewrite N.eqb_sym in Hg. destruct Hg as [->|Hg]; [destruct (r =? u); lia|]. apply andb_prop in Hg. destruct Hg as (_ & Hg). apply N.leb_le in Hg. lia.
      * assert (Hs : s <> u) by (intros ->; exact (F2 _ _ _ _ _ (HO eq_refl))).
        apply bind_ok in H. destruct H as (? & Hg & H). apply guard_ok in Hg. apply N.eqb_eq in Hg. inversion H; subst.
        apply N.eqb_neq in Hs. rewrite Hs. unfold lsum, plain. cbn [fold_right sm_msg]. unfold reports.
        destruct h as [[dn|t|t i]|co k']; cbn [has bk_bank bk_cw20 bk_nft]; try (destruct (r =? u); lia).
        rewrite (N.eqb_sym to co), (N.eqb_sym k k'). destruct (N.eqb_spec co to) as [->|]; cbn [andb].
        -- destruct (N.eqb_spec k' k) as [->|]; [|destruct (r =? u); lia]. rewrite Hs. destruct (r =? u); lia.
        -- destruct (r =? u); lia.
      * inversion H; subst. unfold lsum. cbn [fold_right]. lia.
  - intros w e self id r x subs H. inversion H; subst. unfold lsum. cbn [fold_right]. lia.
  - intros w e s m x d H HO. cbn [x_msg chain] in H. destruct m; try (inversion H; subst; lia).
    apply bind_ok in H. destruct H as (x1 & Hx & H). inversion H; subst. pose proof (paid_coins _ _ _ _ _ u h Hx) as Hp.
    assert (E : sends h (BankSend to coins) = in_coins h coins) by (destruct h as [[]|]; reflexivity). rewrite E. lia.
Qed.

Lemma chain_honest u h : u < 10 -> honest_ledger chain u h (has u h).
Proof. intros Hu. apply chain_fair; [exact Hu|intros; exact (fun F => F)..]. Qed.
Lemma chain_plain u h : u < 10 -> honest_to (plain_payment u) chain u h (has u h).
Proof.
  intros Hu. apply chain_fair; [exact Hu|..]; intros; intros F; apply F; unfold payment; destruct coins; left; reflexivity.
Qed.
Lemma chain_collection c k : honest_collection chain 3 c k (has 3 (HNft c k)).
Proof.
  split.
  - intros x. cbn [has]. destruct (_ =? _); lia.
  - intros x owner approvals H. cbn [x_nft_owner chain] in H. injection H as <- <-. cbn [has].
    destruct (N.eqb_spec (bk_nft x c k) 3) as [E|]; [auto|discriminate].
  - intros w e k' coins x subs d H. cbn [x_exec chain] in H. apply bind_ok in H. destruct H as (? & _ & H). injection H as <- <- _. split; [reflexivity|].
    intros ->. cbn [has bk_nft]. rewrite !N.eqb_refl. reflexivity.
Qed.

(** * The DAOs *)

(** users 11 and 12 have 1000 each of token 90 and of denom 70; 11 owns NFTs 1 to 4, 12 all others of collection 91 *)
Definition opening_book : book :=
  mk_book (fun d u => if (d =? 70) && ((u =? 11) || (u =? 12)) then 1000 else 0)
          (fun t u => if (t =? 90) && ((u =? 11) || (u =? 12)) then 1000 else 0)
          (fun c k => if c =? 91 then (if k <=? 4 then 11 else 12) else 0).

Definition member_init_of (nft : bool) : member_init :=
  if nft then INft 1 (NCw721 91) (DTime 2000) [] [] [3] else IToken 1 90 (DTime 2000) [] [] [3].

Definition l_config (nft : bool) : gov_config := mk_gov_config (percent 30) (percent 50) None 1000 (Some (if nft then 1 else 20)) true.
Definition ledger_dao (nft : bool) : world book :=
  mk_world
    (mk_enterprise 77 9 30 (mk_metadata 100 None None None None None None) (version 1 0 0) (if nft then DaoNft else DaoToken) true (Some (wiring_of dao_at None)))
    (got (ctl_instantiate (clock 50) 1 (if nft then DaoNft else DaoToken) (l_config nft) (Some w_councillors) [] None) (mk_ctl 0 (w_config false) None oempty 0 None None None None))
    (gov_init 3)
    (got (member_instantiate (clock 50) (member_init_of nft)) (MMultisig no_members))
    (got (member_instantiate (clock 50) (IMultisig 1 (Some [(21, 1); (22, 1); (23, 1)]) [] [] [3])) (MMultisig no_members))
    (got (funds_instantiate 3 1 None []) (mk_funds 0 0 0 0 oempty oempty (mk_rewards oempty oempty) (mk_rewards oempty oempty)))
    (got (treasury_instantiate 3 (Some [Native 70; Cw20 90]) None) tr_new)
    (mk_outposts 1 oempty oempty oempty 0) [] false opening_book.

Lemma ledger_new nft : new_dao dao_at (ledger_dao nft).
Proof.
  split.
  - unfold dao_addrs, dao_at. cbn. repeat constructor; cbn; intuition discriminate.
  - reflexivity.
  - exists None. reflexivity.
  - exists (clock 50), (if nft then DaoNft else DaoToken), (l_config nft), (Some w_councillors), None. destruct nft; vm_compute; reflexivity.
  - reflexivity.
  - exists (clock 50), (member_init_of nft). destruct nft; vm_compute; reflexivity.
  - destruct nft; vm_compute; reflexivity.
  - destruct nft; vm_compute; reflexivity.
  - exists (clock 50), (IMultisig 1 (Some [(21, 1); (22, 1); (23, 1)]) [] [] [3]). vm_compute. reflexivity.
  - reflexivity.
Qed.

Definition send_token (t s to amount : N) (h : cw20_hook) : tx := mk_tx 60 (clock t) s (WasmExecute 90 (ToCw20 (Cw20Send to amount h)) []).
Definition to_member (t s : N) (m : member_msg) : tx := mk_tx 60 (clock t) s (WasmExecute 7 (ToMembership m) []).
Definition to_funds (t s : N) (coins : list coin) (m : funds_msg) : tx := mk_tx 60 (clock t) s (WasmExecute 6 (ToFunds m) coins).

(** 11 and 12 stake 300 and 100; 30 coins and 50 tokens are distributed; 11 unstakes 120, 12 unstakes 10 and claims it
    later; 11 claims their rewards in coins. *)
Definition token_story : list tx :=
  [send_token 60 11 7 300 (HookMember (HStake 11)); send_token 61 12 7 100 (HookMember (HStake 12));
   to_funds 70 12 [(70, 30)] FDistributeNative; send_token 71 12 6 50 HookDistribute;
   to_member 80 12 (TokenMsg (TCommon (SUnstake 10))); to_member 90 11 (TokenMsg (TCommon (SUnstake 120)));
   to_member 2085 12 (TokenMsg (TCommon (SClaim None))); to_funds 2086 11 [] (FClaim 11 [70] [])].

Definition send_nft (t s k : N) (h : nft_hook) : tx := mk_tx 60 (clock t) s (WasmExecute 91 (ToCw721 (Cw721Send 7 k h)) []).
(** 11 stakes NFTs 1, 2, 3 and 12 stakes 5; 11 unstakes 1 and 2, and claims them when due. *)
Definition nft_story : list tx :=
  [send_nft 60 11 1 (NStake 11); send_nft 61 11 2 (NStake 11); send_nft 62 11 3 (NStake 11); send_nft 63 12 5 (NStake 12);
   to_member 70 11 (NftMsg (NUnstake [1; 2])); to_member 71 12 (NftMsg (NUnstake [5])); to_member 2070 11 (NftMsg (NClaim None))].

(** 11 stakes 300 tokens; 12 proposes with 100 tokens, 11 with 40; 11 votes for the first proposal, which passes: its
    deposit goes back. *)
Definition token_deposits : list tx :=
  [send_token 60 11 7 300 (HookMember (HStake 11)); send_token 100 12 3 100 (HookProposal [PUpdateMinimumWeight 9] None);
   send_token 101 11 3 40 (HookProposal [] None); vote_yes 110 11 1; execute 300 12 1].
Definition propose_nft (t s : N) (l : list proposal_action) (tokens : list N) : tx := to_ctl t s [] (CCreateProposalNft l None tokens).
(** 11 stakes NFT 1 and proposes with 2 and 3; 12 proposes with 5; the first proposal passes. *)
Definition nft_deposits : list tx :=
  [send_nft 60 11 1 (NStake 11); propose_nft 100 11 [] [2; 3]; propose_nft 101 12 [] [5]; vote_yes 110 11 1; execute 300 12 1].
(** The proposal that passes makes the controller propose with NFT 5, which 12 deposited. *)
Definition redeposit : list tx :=
  [send_nft 60 11 1 (NStake 11); propose_nft 100 12 [] [5];
   propose_nft 101 11 [PExecuteMsgs [Some (WasmExecute 3 (ToController (CCreateProposalNft [] None [5])) [])]] [2];
   vote_yes 110 11 2; execute 300 12 2].
(** The proposal that passes sends away 100 tokens, which 12 deposited. *)
Definition token_raid : list tx :=
  [send_token 60 11 7 300 (HookMember (HStake 11)); send_token 100 12 3 100 (HookProposal [] None);
   send_token 101 11 3 40 (HookProposal [PExecuteMsgs [Some (WasmExecute 90 (ToCw20 (Cw20Transfer 99 100)) [])]] None); vote_yes 110 11 2; execute 300 12 2].
