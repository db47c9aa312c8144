From Verif Require Import Base CrcModel OwModel.

(* a ROM code: eight bytes, the last of which is the checksum of the others (crcUpdate over all eight gives 0), with a family code *)
Definition valid_rom (d : list Z) : Prop := length d = 8%nat /\ Forall (fun b => 0 <= b < 256) d /\ fold_left sab_crcUpdate d 0 = 0 /\ hd 0 d <> 0.
(* the results of n calls of searchNext *)
Fixpoint searches (n : nat) (devs : list (list Z)) (s : owst) : option (owst * list (option (list Z))) :=
  match n with
  | O => Some (s, [])
  | S n => do (s, r) <- ow_searchNext devs s; do (s, l) <- searches n devs s; Some (s, r :: l)
  end.
