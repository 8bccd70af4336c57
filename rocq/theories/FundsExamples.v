(** A concrete distributor history, used to show that the theorems in [PropFunds] are not vacuous. *)
From Verif Require Import Base OMap Assets FundsModel FundsSpec.

(** Answer whitelist queries over a fixed list, two entries at a time. *)
Fixpoint after (a : asset) (l : list asset) : list asset :=
  match l with [] => [] | x :: t => if asset_eqb a x then t else after a t end.
Definition list_page (W : list asset) (k : nat) (start : option asset) : res (list asset) :=
  Ok (firstn k (match start with None => W | Some a => after a W end)).

Definition ex_list : list asset := [Native 5; Native 6; Native 7; Cw20 50].
Definition ex_oracle : funds_oracle := mk_foracle (mk_wl 4 (list_page ex_list 2) [Native 9]) (fun u => u =? 66).

Definition ex_call (s : addr) (coins : list coin) (m : funds_msg) : funds_call := mk_fcall ex_oracle s coins m.

(** admin 1, enterprise 2, minimum 5; user 103 starts below the minimum *)
Definition ex_init : res funds := funds_instantiate 1 2 (Some 5) [(101, 10); (102, 30); (103, 3)].
Definition ex_f0 : funds := match ex_init with Ok f => f | Err _ => mk_funds 0 0 0 0 oempty oempty (mk_rewards oempty oempty) (mk_rewards oempty oempty) end.

Definition ex_calls : list funds_call :=
  [ ex_call 9 [(7, 1001)] FDistributeNative;
    ex_call 1 [] (FUpdateUserWeights [(101, 20); (104, 40)]);
    ex_call 50 [] (FReceive 500 true);
    ex_call 9 [(7, 77); (9, 10)] FDistributeNative;
    ex_call 1 [] (FUpdateMinimum 2) ].
Definition ex_books : books := books_run ex_f0 ex_calls.
