(** What a list test means on plain lists. *)
From Verif Require Import Base M_listtest.

Section S.
Context {A : Type}.
(** the list after the steps; Some None: an assertion does not hold; None: a position out of range or undefined behaviour in an assertion *)
Fixpoint should (xs : list A) (ss : list (step A)) : option (option (list A)) :=
  match ss with
  | [] => Some (Some xs)
  | TAdd x :: ss => should (xs ++ [x]) ss
  | TIns x pos :: ss => if (0 <=? pos) && (pos <=? zlen xs) then should (ztake pos xs ++ x :: zdrop pos xs) ss else None
  | TDel pos :: ss => if (0 <=? pos) && (pos <? zlen xs) then should (ztake pos xs ++ zdrop (pos + 1) xs) ss else None
  | TSize n :: ss => if zlen xs =? n then should xs ss else Some None
  | TCheck pos p :: ss =>
      if pos <? 0 then None
      else match nth_error xs (Z.to_nat pos) with
           | None => None
           | Some x => match p x with Ret true => should xs ss | Ret false => Some None | _ => None end
           end
  end.
(** the values stored by the steps *)
Definition stored (ss : list (step A)) : list A := flat_map (fun s => match s with TAdd x | TIns x _ => [x] | _ => [] end) ss.
End S.
