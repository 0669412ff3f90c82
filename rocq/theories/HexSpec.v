(* Hexadecimal text, as bytes.  Independent of the model. *)
From Coq Require Import NArith List Bool.
From Verif Require Import Base.
Import ListNotations.
Open Scope N_scope.

(* '0'..'9' are 48..57, 'A'..'F' 65..70, 'a'..'f' 97..102. *)
Definition hex_digit (n : N) : N := if n <? 10 then 48 + n else 87 + n.
Definition hex (bs : list N) : list N :=
  flat_map (fun b => [hex_digit (b / 16); hex_digit (b mod 16)]) bs.

Definition lower_hex (ch : N) : Prop := 48 <= ch <= 57 \/ 97 <= ch <= 102.

Definition hex_value (ch : N) : option N :=
  if (48 <=? ch) && (ch <=? 57) then Some (ch - 48)
  else if (97 <=? ch) && (ch <=? 102) then Some (ch - 87)
  else if (65 <=? ch) && (ch <=? 70) then Some (ch - 55)
  else None.

(* Two digits per byte, upper or lower case; anything else is not hex. *)
Fixpoint unhex (s : list N) : option (list N) :=
  match s with
  | [] => Some []
  | a :: b :: r =>
      match hex_value a, hex_value b, unhex r with
      | Some x, Some y, Some z => Some (16 * x + y :: z)
      | _, _, _ => None
      end
  | _ => None
  end.
