(* M_Table.v : Kpoints.hs_table as text, with the float formatting written out.  M_Kpoints.hs_table
   takes the header, the formatting and the padding as arguments; here they are given. *)
From Verif Require Import Base M_Strings M_Kpoints M_Poscar.
Open Scope string_scope.
Open Scope list_scope.
Open Scope R_scope.

(* f"{s:<{n}}" and f"{s:>{n}}" [/repo/src/wulfric/_kpoints_class.py:577-583, 595] *)
Definition ljust (n : nat) (s : string) : string := String.append s (spaces (n - String.length s)).
(* /repo/src/wulfric/_kpoints_class.py:578-583 *)
Definition rjust (n : nat) (s : string) : string := String.append (spaces (n - String.length s)) s.
(* f"{x: {d + 3}.{d}f}": a blank in place of the plus sign, then padded on the left
   [/repo/src/wulfric/_kpoints_class.py:588-594] *)
Definition format_signed (d : nat) (x : R) : string :=
  rjust (d + 3) (String.append (if Rltb x 0 then "" else " ") (format_f d x)).
(* max([len(name) for name in self.hs_names]) [/repo/src/wulfric/_kpoints_class.py:574] *)
Definition longest (names : list string) : nat := fold_right (fun s m => Nat.max (String.length s) m) 0%nat names.
(* /repo/src/wulfric/_kpoints_class.py:575-585 *)
Definition table_header (nd d : nat) : string :=
  (ljust nd "Name" ++ "  " ++ rjust (d + 3) "rel_b1" ++ " " ++ rjust (d + 3) "rel_b2" ++ " " ++ rjust (d + 3) "rel_b3" ++ "  "
   ++ rjust (d + 3) "k_x" ++ " " ++ rjust (d + 3) "k_y" ++ " " ++ rjust (d + 3) "k_z")%string.
(* /repo/src/wulfric/_kpoints_class.py:550-596.  decimals is an integer; a negative one is no valid
   precision in a format specification (ValueError, raised for the first point at the latest) *)
Definition hs_table_text (k : kpoints) (decimals : Z) : res string :=
  match k_names k with
  | [] => Err ValueError
  | _ =>
      if (decimals <? 0)%Z then Err ValueError else
      let d := Z.to_nat decimals in
      let nd := longest (k_names k) in
      do lines <- hs_table (table_header nd d) (format_signed d) (ljust nd) k;
      Ok (join (String LF "") lines)
  end.
