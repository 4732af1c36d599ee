(** Specification vocabulary for opening data bases. *)
From stdpp Require Import gmap list.
From Coq Require Import NArith.
From Verif Require Import IdModel DiscModel OpenModel.

(** The statements that were executed at path [p], out of what happened. *)
Fixpoint executed (p : N) (l : list (fop * (bool * option bytes))) : list dop :=
  match l with
  | [] => []
  | (FDo p' o, (true, _)) :: l' => if bool_decide (p' = p) then o :: executed p l' else executed p l'
  | _ :: l' => executed p l'
  end.
(** Somebody opened [p] in full, whatever others did meanwhile. *)
Definition opened (p : N) (os : list fop) : Prop := f_open p `sublist_of` os.
