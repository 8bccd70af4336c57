(** What the reward properties mean. *)
From Verif Require Import Base OMap Assets FundsModel.

(** Amount of one asset in a list of (asset, amount). *)
Definition total_of (a : asset) (l : list amount_of) : N :=
  lsum snd (filter (fun p => asset_eqb a (fst p)) l).

Definition paid_amounts (ps : list payment) : list amount_of := map (fun p => (pay_asset p, pay_amount p)) ps.

(** Amounts a call hands over for distribution, if the contract accepts the call. *)
Definition handed_over (f : funds) (c : funds_call) : list amount_of :=
  match funds_execute (fc_oracle c) f (fc_sender c) (fc_coins c) (fc_msg c), fc_msg c with
  | Ok _, FDistributeNative => map (fun x => (Native (fst x), snd x)) (fc_coins c)
  | Ok _, FReceive amount _ => [(Cw20 (fc_sender c), amount)]
  | _, _ => []
  end.

(** The state after a history, with everything paid out and everything distributed on the way. *)
Record books := mk_books { b_funds : funds; b_paid : list payment; b_distributed : list amount_of }.

Definition books_step (b : books) (c : funds_call) : books :=
  {| b_funds := fst (funds_step (b_funds b) c);
     b_paid := b_paid b ++ snd (funds_step (b_funds b) c);
     b_distributed := b_distributed b ++ handed_over (b_funds b) c |}.

Definition books_run (f : funds) (cs : list funds_call) : books := fold_left books_step cs (mk_books f [] []).

(** A state the contract can be in, with its books. *)
Definition reachable (b : books) : Prop :=
  exists admin enterprise min initial f0 cs,
    funds_instantiate admin enterprise min initial = Ok f0 /\ b = books_run f0 cs.

(** [claimable f u a = Ok x] is what the rewards query reports. *)
Definition can_claim (f : funds) (u : addr) (a : asset) (x : N) : Prop := claimable f u a = Ok x.

(** [page] answers queries over the list [W] in pages of [k]: the first page, and the page after an entry. *)
Definition pager (W : list asset) (k : nat) (page : option asset -> res (list asset)) : Prop :=
  page None = Ok (firstn k W) /\
  forall i a, nth_error W i = Some a -> page (Some a) = Ok (firstn k (skipn (S i) W)).

(** Payments for the non-zero entries of a rewards answer. *)
Definition pay_all (mk : N -> asset) (u : addr) (l : list (N * N)) : list payment :=
  map (fun p => mk_payment (mk (fst p)) u (snd p)) (filter (fun p => negb (snd p =? 0)) l).

(** The weight the last entry for [u] in a list of weights gives, if there is one. *)
Definition last_weight (changes : list (N * N)) (u : N) (old : option N) : option N :=
  fold_left (fun acc uw => if fst uw =? u then Some (snd uw) else acc) changes old.

(** Effective weights after a list of weight changes. *)
Definition eff_after (f : funds) (ch : list (N * N)) : omap N :=
  fold_left (fun m uw => oset m (fst uw) (if f_min f <=? snd uw then snd uw else 0)) ch (f_eff f).
