(** Assets: the model of [cw_asset::AssetInfo] and [Asset]. *)
From Verif Require Import Base.

(** [AssetInfoBase]: native denom, cw20 contract, cw1155 contract and token id.
    Denoms, addresses and ids are numbers. *)
Inductive asset := Native (denom : N) | Cw20 (a : addr) | Cw1155 (a : addr) (id : N).

Definition asset_eqb (x y : asset) : bool :=
  match x, y with
  | Native d, Native d' => d =? d'
  | Cw20 a, Cw20 a' => a =? a'
  | Cw1155 a i, Cw1155 a' i' => (a =? a') && (i =? i')
  | _, _ => false
  end.

Definition asset_in (a : asset) (l : list asset) : bool := existsb (asset_eqb a) l.

(** An asset with an amount. *)
Definition amount_of := (asset * N)%type.
