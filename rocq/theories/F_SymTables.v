(* F_SymTables.v : certificates (see F_Symmetry.v) for the tables of high-symmetry points: which symmetry
   relates points whose names have the same letters, and planes that points next to each other on the
   recommended path have in common.  Names of lemmas as in F_ZoneTables.v. *)
From Verif Require Import Base M_Strings M_Dict M_Numerical M_Geometry M_Cell T_Points F_Geometry S_Zone F_Zone F_ZoneTables F_ZoneTables2 S_Symmetry F_Symmetry.
Open Scope string_scope.
Open Scope list_scope.
Open Scope R_scope.

Ltac sym_start H tbl := zone_start H tbl.
Ltac first_point := cbn [fst snd first_with letters is_letter N_of_ascii N_of_digits N.leb N.compare Pos.compare Pos.compare_cont N.add N.mul Pos.add Pos.mul andb String.eqb Ascii.eqb Bool.eqb]; reflexivity.
Ltac arith := first [lra|match goal with PQ : ?q * ?q = 1 - ?s * ?s |- _ => field [PQ]; nz; no_cos end|field; nz].
Ltac coords := cbn [snd]; unfold ofZv, ofZ, mk; vunfold; cbn [zx zy zz z11 z12 z13 z21 z22 z23 z31 z32 z33]; f_equal; lra.
Ltac lf_self := eexists; split; [first_point|apply equivalent_refl].
Ltac lf_same n := eexists; split; [first_point|apply (equivalent_same _ n); coords].
Ltac lf_opposite n := eexists; split; [first_point|apply (equivalent_opposite _ n); coords].
Ltac abstract_weights := repeat match goal with |- context [?x / ?y] => generalize (x / y); intros ? end; repeat match goal with |- context [/ ?y] => generalize (/ y); intros ? end.
Ltac keeps_it := abstract_weights; unfold keeps; intros [] []; unfold ofZ, mk; cbn [form z11 z12 z13 z21 z22 z23 z31 z32 z33]; unfold lin; cbn [zx zy zz]; vunfold; ring.
Ltac lf_by DR MET g g' n := eexists; split; [first_point|apply (equivalent_table _ _ _ g g' n _ _ DR MET); [keeps_it|reflexivity|coords]].
Ltac in_table := cbn [fst]; first [left; reflexivity|right; in_table].
Ltac on_pl MET := apply Forall_cons; [split; [discriminate|apply (plane_ok _ _ _ _ _ MET); cbn [form]; unfold lin, ofZv; cbn [vx vy vz zx zy zz]; unfold sq; arith]|].
Definition planes_H69cP : planes := [("X", [Zv 0 1 0]); ("M", [Zv 0 1 0; Zv 1 0 0]); ("R", [Zv 0 1 0]); ("X1", [Zv 1 0 0])].
Lemma sym_H69cP r K a pts : det r <> 0 -> 0 < a -> metric r K (terms_H69cP (/ (a * a)) (/ (a * a)) (/ (a * a))) -> hpkot_table_69 = Ok pts -> same_letters r pts /\ planes_ok r pts planes_H69cP.
Proof.
  intros DR Ha MET H. sym_start H hpkot_table_69. unfold terms_H69cP in *. split.
  - apply like_first_all.
    apply Forall_cons; [lf_self|]. (* GAMMA *)
    apply Forall_cons; [lf_self|]. (* R *)
    apply Forall_cons; [lf_self|]. (* M *)
    apply Forall_cons; [lf_self|]. (* X *)
    apply Forall_cons; [lf_by DR MET (Zm 0 (-1) 0 (-1) 0 0 0 0 (-1)) (Zm 0 (-1) 0 (-1) 0 0 0 0 (-1)) (Zv 1 0 0)|]. (* X1 *)
    apply Forall_nil.
  - unfold planes_ok, planes_H69cP.
    apply Forall_cons; [eexists; split; [in_table|]; cbn [snd]; on_pl MET; apply Forall_nil|]. (* X *)
    apply Forall_cons; [eexists; split; [in_table|]; cbn [snd]; on_pl MET; on_pl MET; apply Forall_nil|]. (* M *)
    apply Forall_cons; [eexists; split; [in_table|]; cbn [snd]; on_pl MET; apply Forall_nil|]. (* R *)
    apply Forall_cons; [eexists; split; [in_table|]; cbn [snd]; on_pl MET; apply Forall_nil|]. (* X1 *)
    apply Forall_nil.
Qed.
Definition planes_H70cF : planes := [("X", [Zv 1 0 1]); ("U", [Zv 1 0 1]); ("L", [Zv 1 1 1]); ("W", [Zv 1 1 1; Zv 1 0 1]); ("W2", [Zv 1 0 1])].
Lemma sym_H70cF r K a pts : det r <> 0 -> 0 < a -> metric r K (terms_H70cF (/ (a * a)) (/ (a * a)) (/ (a * a))) -> hpkot_table_70 = Ok pts -> same_letters r pts /\ planes_ok r pts planes_H70cF.
Proof.
  intros DR Ha MET H. sym_start H hpkot_table_70. unfold terms_H70cF in *. split.
  - apply like_first_all.
    apply Forall_cons; [lf_self|]. (* GAMMA *)
    apply Forall_cons; [lf_self|]. (* X *)
    apply Forall_cons; [lf_self|]. (* L *)
    apply Forall_cons; [lf_self|]. (* W *)
    apply Forall_cons; [lf_by DR MET (Zm (-1) (-1) (-1) 1 0 0 0 1 0) (Zm 0 1 0 0 0 1 (-1) (-1) (-1)) (Zv 1 0 1)|]. (* W2 *)
    apply Forall_cons; [lf_self|]. (* K *)
    apply Forall_cons; [lf_self|]. (* U *)
    apply Forall_nil.
  - unfold planes_ok, planes_H70cF.
    apply Forall_cons; [eexists; split; [in_table|]; cbn [snd]; on_pl MET; apply Forall_nil|]. (* X *)
    apply Forall_cons; [eexists; split; [in_table|]; cbn [snd]; on_pl MET; apply Forall_nil|]. (* U *)
    apply Forall_cons; [eexists; split; [in_table|]; cbn [snd]; on_pl MET; apply Forall_nil|]. (* L *)
    apply Forall_cons; [eexists; split; [in_table|]; cbn [snd]; on_pl MET; on_pl MET; apply Forall_nil|]. (* W *)
    apply Forall_cons; [eexists; split; [in_table|]; cbn [snd]; on_pl MET; apply Forall_nil|]. (* W2 *)
    apply Forall_nil.
Qed.
Definition planes_H71cI : planes := [("H", [Zv 0 0 1]); ("N", [Zv 0 0 1]); ("P", [Zv 0 0 1])].
Lemma sym_H71cI r K a pts : det r <> 0 -> 0 < a -> metric r K (terms_H71cI (/ (a * a))) -> hpkot_table_71 = Ok pts -> same_letters r pts /\ planes_ok r pts planes_H71cI.
Proof.
  intros DR Ha MET H. sym_start H hpkot_table_71. unfold terms_H71cI in *. split.
  - apply like_first_all.
    apply Forall_cons; [lf_self|]. (* GAMMA *)
    apply Forall_cons; [lf_self|]. (* H *)
    apply Forall_cons; [lf_self|]. (* P *)
    apply Forall_cons; [lf_self|]. (* N *)
    apply Forall_nil.
  - unfold planes_ok, planes_H71cI.
    apply Forall_cons; [eexists; split; [in_table|]; cbn [snd]; on_pl MET; apply Forall_nil|]. (* H *)
    apply Forall_cons; [eexists; split; [in_table|]; cbn [snd]; on_pl MET; apply Forall_nil|]. (* N *)
    apply Forall_cons; [eexists; split; [in_table|]; cbn [snd]; on_pl MET; apply Forall_nil|]. (* P *)
    apply Forall_nil.
Qed.
Definition planes_H72tP : planes := [("X", [Zv 0 1 0]); ("M", [Zv 0 1 0]); ("Z", [Zv 0 0 1]); ("R", [Zv 0 0 1; Zv 0 1 0]); ("A", [Zv 0 0 1; Zv 0 1 0])].
Lemma sym_H72tP r K a c pts : det r <> 0 -> 0 < a -> 0 < c -> metric r K (terms_H69cP (/ (a * a)) (/ (a * a)) (/ (c * c))) -> hpkot_table_72 = Ok pts -> same_letters r pts /\ planes_ok r pts planes_H72tP.
Proof.
  intros DR Ha Hc MET H. sym_start H hpkot_table_72. unfold terms_H69cP in *. split.
  - apply like_first_all.
    apply Forall_cons; [lf_self|]. (* GAMMA *)
    apply Forall_cons; [lf_self|]. (* Z *)
    apply Forall_cons; [lf_self|]. (* M *)
    apply Forall_cons; [lf_self|]. (* A *)
    apply Forall_cons; [lf_self|]. (* R *)
    apply Forall_cons; [lf_self|]. (* X *)
    apply Forall_nil.
  - unfold planes_ok, planes_H72tP.
    apply Forall_cons; [eexists; split; [in_table|]; cbn [snd]; on_pl MET; apply Forall_nil|]. (* X *)
    apply Forall_cons; [eexists; split; [in_table|]; cbn [snd]; on_pl MET; apply Forall_nil|]. (* M *)
    apply Forall_cons; [eexists; split; [in_table|]; cbn [snd]; on_pl MET; apply Forall_nil|]. (* Z *)
    apply Forall_cons; [eexists; split; [in_table|]; cbn [snd]; on_pl MET; on_pl MET; apply Forall_nil|]. (* R *)
    apply Forall_cons; [eexists; split; [in_table|]; cbn [snd]; on_pl MET; on_pl MET; apply Forall_nil|]. (* A *)
    apply Forall_nil.
Qed.
Definition planes_H73tI : planes := [("X", [Zv 0 0 1]); ("M", [Zv 0 0 1]); ("Z0", [Zv 0 0 1]); ("P", [Zv 0 0 1; Zv 0 1 0]); ("N", [Zv 0 1 0])].
Lemma sym_H73tI r K a c pts : det r <> 0 -> 0 < a -> 0 < c -> metric r K (terms_H73tI (/ (a * a)) (/ (c * c))) -> hpkot_table_73 a c = Ok pts -> same_letters r pts /\ planes_ok r pts planes_H73tI.
Proof.
  intros DR Ha Hc MET H. sym_start H hpkot_table_73. unfold terms_H73tI in *. split.
  - apply like_first_all.
    apply Forall_cons; [lf_self|]. (* GAMMA *)
    apply Forall_cons; [lf_self|]. (* M *)
    apply Forall_cons; [lf_self|]. (* X *)
    apply Forall_cons; [lf_self|]. (* P *)
    apply Forall_cons; [lf_self|]. (* Z *)
    apply Forall_cons; [lf_opposite (Zv 0 1 0)|]. (* Z0 *)
    apply Forall_cons; [lf_self|]. (* N *)
    apply Forall_nil.
  - unfold planes_ok, planes_H73tI.
    apply Forall_cons; [eexists; split; [in_table|]; cbn [snd]; on_pl MET; apply Forall_nil|]. (* X *)
    apply Forall_cons; [eexists; split; [in_table|]; cbn [snd]; on_pl MET; apply Forall_nil|]. (* M *)
    apply Forall_cons; [eexists; split; [in_table|]; cbn [snd]; on_pl MET; apply Forall_nil|]. (* Z0 *)
    apply Forall_cons; [eexists; split; [in_table|]; cbn [snd]; on_pl MET; on_pl MET; apply Forall_nil|]. (* P *)
    apply Forall_cons; [eexists; split; [in_table|]; cbn [snd]; on_pl MET; apply Forall_nil|]. (* N *)
    apply Forall_nil.
Qed.
Definition planes_H74tI : planes := [("X", [Zv 0 0 1]); ("P", [Zv 0 0 1; Zv 0 1 0]); ("N", [Zv 0 1 0]); ("M", [Zv 1 1 (-1)]); ("S", [Zv 1 1 (-1)]); ("R", [Zv 0 0 1]); ("G", [Zv 1 1 (-1)])].
Lemma sym_H74tI r K a c pts : det r <> 0 -> 0 < a -> 0 < c -> metric r K (terms_H74tI (/ (a * a)) (/ (a * a)) (/ (c * c))) -> hpkot_table_74 a c = Ok pts -> same_letters r pts /\ planes_ok r pts planes_H74tI.
Proof.
  intros DR Ha Hc MET H. sym_start H hpkot_table_74. unfold terms_H74tI in *. split.
  - apply like_first_all.
    apply Forall_cons; [lf_self|]. (* GAMMA *)
    apply Forall_cons; [lf_self|]. (* M *)
    apply Forall_cons; [lf_self|]. (* X *)
    apply Forall_cons; [lf_self|]. (* P *)
    apply Forall_cons; [lf_self|]. (* N *)
    apply Forall_cons; [lf_self|]. (* S0 *)
    apply Forall_cons; [lf_opposite (Zv 0 1 0)|]. (* S *)
    apply Forall_cons; [lf_self|]. (* R *)
    apply Forall_cons; [lf_self|]. (* G *)
    apply Forall_nil.
  - unfold planes_ok, planes_H74tI.
    apply Forall_cons; [eexists; split; [in_table|]; cbn [snd]; on_pl MET; apply Forall_nil|]. (* X *)
    apply Forall_cons; [eexists; split; [in_table|]; cbn [snd]; on_pl MET; on_pl MET; apply Forall_nil|]. (* P *)
    apply Forall_cons; [eexists; split; [in_table|]; cbn [snd]; on_pl MET; apply Forall_nil|]. (* N *)
    apply Forall_cons; [eexists; split; [in_table|]; cbn [snd]; on_pl MET; apply Forall_nil|]. (* M *)
    apply Forall_cons; [eexists; split; [in_table|]; cbn [snd]; on_pl MET; apply Forall_nil|]. (* S *)
    apply Forall_cons; [eexists; split; [in_table|]; cbn [snd]; on_pl MET; apply Forall_nil|]. (* R *)
    apply Forall_cons; [eexists; split; [in_table|]; cbn [snd]; on_pl MET; apply Forall_nil|]. (* G *)
    apply Forall_nil.
Qed.
Definition planes_H75oP : planes := [("X", [Zv 1 0 0]); ("S", [Zv 1 0 0; Zv 0 1 0]); ("Y", [Zv 0 1 0]); ("Z", [Zv 0 0 1]); ("U", [Zv 0 0 1; Zv 1 0 0]); ("R", [Zv 0 0 1; Zv 0 1 0]); ("T", [Zv 0 0 1; Zv 0 1 0])].
Lemma sym_H75oP r K a b c pts : det r <> 0 -> 0 < a -> 0 < b -> 0 < c -> metric r K (terms_H69cP (/ (a * a)) (/ (b * b)) (/ (c * c))) -> hpkot_table_75 = Ok pts -> same_letters r pts /\ planes_ok r pts planes_H75oP.
Proof.
  intros DR Ha Hb Hc MET H. sym_start H hpkot_table_75. unfold terms_H69cP in *. split.
  - apply like_first_all.
    apply Forall_cons; [lf_self|]. (* GAMMA *)
    apply Forall_cons; [lf_self|]. (* X *)
    apply Forall_cons; [lf_self|]. (* Z *)
    apply Forall_cons; [lf_self|]. (* U *)
    apply Forall_cons; [lf_self|]. (* Y *)
    apply Forall_cons; [lf_self|]. (* S *)
    apply Forall_cons; [lf_self|]. (* T *)
    apply Forall_cons; [lf_self|]. (* R *)
    apply Forall_nil.
  - unfold planes_ok, planes_H75oP.
    apply Forall_cons; [eexists; split; [in_table|]; cbn [snd]; on_pl MET; apply Forall_nil|]. (* X *)
    apply Forall_cons; [eexists; split; [in_table|]; cbn [snd]; on_pl MET; on_pl MET; apply Forall_nil|]. (* S *)
    apply Forall_cons; [eexists; split; [in_table|]; cbn [snd]; on_pl MET; apply Forall_nil|]. (* Y *)
    apply Forall_cons; [eexists; split; [in_table|]; cbn [snd]; on_pl MET; apply Forall_nil|]. (* Z *)
    apply Forall_cons; [eexists; split; [in_table|]; cbn [snd]; on_pl MET; on_pl MET; apply Forall_nil|]. (* U *)
    apply Forall_cons; [eexists; split; [in_table|]; cbn [snd]; on_pl MET; on_pl MET; apply Forall_nil|]. (* R *)
    apply Forall_cons; [eexists; split; [in_table|]; cbn [snd]; on_pl MET; on_pl MET; apply Forall_nil|]. (* T *)
    apply Forall_nil.
Qed.
Definition planes_H76oF : planes := [("Y", [Zv 1 0 1]); ("T", [Zv 1 0 1; Zv 1 1 0]); ("Z", [Zv 1 1 0]); ("U0", [Zv 1 1 0]); ("C0", [Zv 1 0 1]); ("A0", [Zv 1 1 0])].
Lemma sym_H76oF r K a b c pts : det r <> 0 -> 0 < a -> 0 < b -> 0 < c -> metric r K (terms_H76oF (/ (a * a)) (/ (b * b)) (/ (c * c))) -> hpkot_table_76 a b c = Ok pts -> same_letters r pts /\ planes_ok r pts planes_H76oF.
Proof.
  intros DR Ha Hb Hc MET H. sym_start H hpkot_table_76. unfold terms_H76oF in *. split.
  - apply like_first_all.
    apply Forall_cons; [lf_self|]. (* GAMMA *)
    apply Forall_cons; [lf_self|]. (* T *)
    apply Forall_cons; [lf_self|]. (* Z *)
    apply Forall_cons; [lf_self|]. (* Y *)
    apply Forall_cons; [lf_self|]. (* SIGMA0 *)
    apply Forall_cons; [lf_self|]. (* U0 *)
    apply Forall_cons; [lf_self|]. (* A0 *)
    apply Forall_cons; [lf_self|]. (* C0 *)
    apply Forall_cons; [lf_self|]. (* L *)
    apply Forall_nil.
  - unfold planes_ok, planes_H76oF.
    apply Forall_cons; [eexists; split; [in_table|]; cbn [snd]; on_pl MET; apply Forall_nil|]. (* Y *)
    apply Forall_cons; [eexists; split; [in_table|]; cbn [snd]; on_pl MET; on_pl MET; apply Forall_nil|]. (* T *)
    apply Forall_cons; [eexists; split; [in_table|]; cbn [snd]; on_pl MET; apply Forall_nil|]. (* Z *)
    apply Forall_cons; [eexists; split; [in_table|]; cbn [snd]; on_pl MET; apply Forall_nil|]. (* U0 *)
    apply Forall_cons; [eexists; split; [in_table|]; cbn [snd]; on_pl MET; apply Forall_nil|]. (* C0 *)
    apply Forall_cons; [eexists; split; [in_table|]; cbn [snd]; on_pl MET; apply Forall_nil|]. (* A0 *)
    apply Forall_nil.
Qed.
Definition planes_H77oF : planes := [("T", [Zv 0 1 1]); ("Z", [Zv 0 1 1; Zv 1 0 1]); ("Y", [Zv 1 0 1]); ("Q0", [Zv 0 1 1]); ("G0", [Zv 0 1 1]); ("H0", [Zv 1 0 1])].
Lemma sym_H77oF r K a b c pts : det r <> 0 -> 0 < a -> 0 < b -> 0 < c -> metric r K (terms_H77oF (/ (a * a)) (/ (b * b)) (/ (c * c))) -> hpkot_table_77 a b c = Ok pts -> same_letters r pts /\ planes_ok r pts planes_H77oF.
Proof.
  intros DR Ha Hb Hc MET H. sym_start H hpkot_table_77. unfold terms_H77oF in *. split.
  - apply like_first_all.
    apply Forall_cons; [lf_self|]. (* GAMMA *)
    apply Forall_cons; [lf_self|]. (* T *)
    apply Forall_cons; [lf_self|]. (* Z *)
    apply Forall_cons; [lf_self|]. (* Y *)
    apply Forall_cons; [lf_self|]. (* LAMBDA0 *)
    apply Forall_cons; [lf_self|]. (* Q0 *)
    apply Forall_cons; [lf_self|]. (* G0 *)
    apply Forall_cons; [lf_self|]. (* H0 *)
    apply Forall_cons; [lf_self|]. (* L *)
    apply Forall_nil.
  - unfold planes_ok, planes_H77oF.
    apply Forall_cons; [eexists; split; [in_table|]; cbn [snd]; on_pl MET; apply Forall_nil|]. (* T *)
    apply Forall_cons; [eexists; split; [in_table|]; cbn [snd]; on_pl MET; on_pl MET; apply Forall_nil|]. (* Z *)
    apply Forall_cons; [eexists; split; [in_table|]; cbn [snd]; on_pl MET; apply Forall_nil|]. (* Y *)
    apply Forall_cons; [eexists; split; [in_table|]; cbn [snd]; on_pl MET; apply Forall_nil|]. (* Q0 *)
    apply Forall_cons; [eexists; split; [in_table|]; cbn [snd]; on_pl MET; apply Forall_nil|]. (* G0 *)
    apply Forall_cons; [eexists; split; [in_table|]; cbn [snd]; on_pl MET; apply Forall_nil|]. (* H0 *)
    apply Forall_nil.
Qed.
Definition planes_H78oF : planes := [("Y", [Zv 1 0 1]); ("C0", [Zv 1 0 1]); ("A0", [Zv 1 1 0]); ("Z", [Zv 1 1 0]); ("B0", [Zv 1 1 0]); ("D0", [Zv 0 1 1]); ("T", [Zv 0 1 1]); ("G0", [Zv 0 1 1]); ("H0", [Zv 1 0 1])].
Lemma sym_H78oF r K a b c pts : det r <> 0 -> 0 < a -> 0 < b -> 0 < c -> metric r K (terms_H70cF (/ (a * a)) (/ (b * b)) (/ (c * c))) -> hpkot_table_78 a b c = Ok pts -> same_letters r pts /\ planes_ok r pts planes_H78oF.
Proof.
  intros DR Ha Hb Hc MET H. sym_start H hpkot_table_78. unfold terms_H70cF in *. split.
  - apply like_first_all.
    apply Forall_cons; [lf_self|]. (* GAMMA *)
    apply Forall_cons; [lf_self|]. (* T *)
    apply Forall_cons; [lf_self|]. (* Z *)
    apply Forall_cons; [lf_self|]. (* Y *)
    apply Forall_cons; [lf_self|]. (* A0 *)
    apply Forall_cons; [lf_self|]. (* C0 *)
    apply Forall_cons; [lf_self|]. (* B0 *)
    apply Forall_cons; [lf_self|]. (* D0 *)
    apply Forall_cons; [lf_self|]. (* G0 *)
    apply Forall_cons; [lf_self|]. (* H0 *)
    apply Forall_cons; [lf_self|]. (* L *)
    apply Forall_nil.
  - unfold planes_ok, planes_H78oF.
    apply Forall_cons; [eexists; split; [in_table|]; cbn [snd]; on_pl MET; apply Forall_nil|]. (* Y *)
    apply Forall_cons; [eexists; split; [in_table|]; cbn [snd]; on_pl MET; apply Forall_nil|]. (* C0 *)
    apply Forall_cons; [eexists; split; [in_table|]; cbn [snd]; on_pl MET; apply Forall_nil|]. (* A0 *)
    apply Forall_cons; [eexists; split; [in_table|]; cbn [snd]; on_pl MET; apply Forall_nil|]. (* Z *)
    apply Forall_cons; [eexists; split; [in_table|]; cbn [snd]; on_pl MET; apply Forall_nil|]. (* B0 *)
    apply Forall_cons; [eexists; split; [in_table|]; cbn [snd]; on_pl MET; apply Forall_nil|]. (* D0 *)
    apply Forall_cons; [eexists; split; [in_table|]; cbn [snd]; on_pl MET; apply Forall_nil|]. (* T *)
    apply Forall_cons; [eexists; split; [in_table|]; cbn [snd]; on_pl MET; apply Forall_nil|]. (* G0 *)
    apply Forall_cons; [eexists; split; [in_table|]; cbn [snd]; on_pl MET; apply Forall_nil|]. (* H0 *)
    apply Forall_nil.
Qed.
Definition planes_H79oI : planes := [("X", [Zv 1 1 (-1)]); ("F2", [Zv 1 1 (-1)]); ("U0", [Zv 1 1 (-1)]); ("R", [Zv 0 1 0]); ("W", [Zv 0 1 0; Zv 1 0 0; Zv 0 0 1]); ("S", [Zv 1 0 0]); ("T", [Zv 0 0 1])].
Lemma sym_H79oI r K a b c pts : det r <> 0 -> 0 < a -> 0 < b -> 0 < c -> metric r K (terms_H74tI (/ (a * a)) (/ (b * b)) (/ (c * c))) -> hpkot_table_79 a b c = Ok pts -> same_letters r pts /\ planes_ok r pts planes_H79oI.
Proof.
  intros DR Ha Hb Hc MET H. sym_start H hpkot_table_79. unfold terms_H74tI in *. split.
  - apply like_first_all.
    apply Forall_cons; [lf_self|]. (* GAMMA *)
    apply Forall_cons; [lf_self|]. (* X *)
    apply Forall_cons; [lf_self|]. (* S *)
    apply Forall_cons; [lf_self|]. (* R *)
    apply Forall_cons; [lf_self|]. (* T *)
    apply Forall_cons; [lf_self|]. (* W *)
    apply Forall_cons; [lf_self|]. (* SIGMA0 *)
    apply Forall_cons; [lf_self|]. (* F2 *)
    apply Forall_cons; [lf_self|]. (* Y0 *)
    apply Forall_cons; [lf_self|]. (* U0 *)
    apply Forall_cons; [lf_self|]. (* L0 *)
    apply Forall_cons; [lf_self|]. (* M0 *)
    apply Forall_cons; [lf_self|]. (* J0 *)
    apply Forall_nil.
  - unfold planes_ok, planes_H79oI.
    apply Forall_cons; [eexists; split; [in_table|]; cbn [snd]; on_pl MET; apply Forall_nil|]. (* X *)
    apply Forall_cons; [eexists; split; [in_table|]; cbn [snd]; on_pl MET; apply Forall_nil|]. (* F2 *)
    apply Forall_cons; [eexists; split; [in_table|]; cbn [snd]; on_pl MET; apply Forall_nil|]. (* U0 *)
    apply Forall_cons; [eexists; split; [in_table|]; cbn [snd]; on_pl MET; apply Forall_nil|]. (* R *)
    apply Forall_cons; [eexists; split; [in_table|]; cbn [snd]; on_pl MET; on_pl MET; on_pl MET; apply Forall_nil|]. (* W *)
    apply Forall_cons; [eexists; split; [in_table|]; cbn [snd]; on_pl MET; apply Forall_nil|]. (* S *)
    apply Forall_cons; [eexists; split; [in_table|]; cbn [snd]; on_pl MET; apply Forall_nil|]. (* T *)
    apply Forall_nil.
Qed.
Definition planes_H80oI : planes := [("X", [Zv (-1) 1 1]); ("U2", [Zv (-1) 1 1]); ("G2", [Zv (-1) 1 1]); ("R", [Zv 0 1 0]); ("W", [Zv 0 1 0; Zv 1 0 0; Zv 0 0 1]); ("S", [Zv 1 0 0]); ("T", [Zv 0 0 1])].
Lemma sym_H80oI r K a b c pts : det r <> 0 -> 0 < a -> 0 < b -> 0 < c -> metric r K (terms_H80oI (/ (a * a)) (/ (b * b)) (/ (c * c))) -> hpkot_table_80 a b c = Ok pts -> same_letters r pts /\ planes_ok r pts planes_H80oI.
Proof.
  intros DR Ha Hb Hc MET H. sym_start H hpkot_table_80. unfold terms_H80oI in *. split.
  - apply like_first_all.
    apply Forall_cons; [lf_self|]. (* GAMMA *)
    apply Forall_cons; [lf_self|]. (* X *)
    apply Forall_cons; [lf_self|]. (* S *)
    apply Forall_cons; [lf_self|]. (* R *)
    apply Forall_cons; [lf_self|]. (* T *)
    apply Forall_cons; [lf_self|]. (* W *)
    apply Forall_cons; [lf_self|]. (* Y0 *)
    apply Forall_cons; [lf_self|]. (* U2 *)
    apply Forall_cons; [lf_self|]. (* LAMBDA0 *)
    apply Forall_cons; [lf_self|]. (* G2 *)
    apply Forall_cons; [lf_self|]. (* K *)
    apply Forall_cons; [lf_opposite (Zv 1 0 0)|]. (* K2 *)
    apply Forall_cons; [lf_by DR MET (Zm 0 1 (-1) 0 1 0 (-1) 1 0) (Zm 0 1 (-1) 0 1 0 (-1) 1 0) (Zv 0 0 1)|]. (* K4 *)
    apply Forall_nil.
  - unfold planes_ok, planes_H80oI.
    apply Forall_cons; [eexists; split; [in_table|]; cbn [snd]; on_pl MET; apply Forall_nil|]. (* X *)
    apply Forall_cons; [eexists; split; [in_table|]; cbn [snd]; on_pl MET; apply Forall_nil|]. (* U2 *)
    apply Forall_cons; [eexists; split; [in_table|]; cbn [snd]; on_pl MET; apply Forall_nil|]. (* G2 *)
    apply Forall_cons; [eexists; split; [in_table|]; cbn [snd]; on_pl MET; apply Forall_nil|]. (* R *)
    apply Forall_cons; [eexists; split; [in_table|]; cbn [snd]; on_pl MET; on_pl MET; on_pl MET; apply Forall_nil|]. (* W *)
    apply Forall_cons; [eexists; split; [in_table|]; cbn [snd]; on_pl MET; apply Forall_nil|]. (* S *)
    apply Forall_cons; [eexists; split; [in_table|]; cbn [snd]; on_pl MET; apply Forall_nil|]. (* T *)
    apply Forall_nil.
Qed.
Definition planes_H81oI : planes := [("X", [Zv 1 (-1) 1]); ("F0", [Zv 1 (-1) 1]); ("G0", [Zv 1 (-1) 1]); ("R", [Zv 0 1 0]); ("W", [Zv 0 1 0; Zv 1 0 0; Zv 0 0 1]); ("S", [Zv 1 0 0]); ("T", [Zv 0 0 1])].
Lemma sym_H81oI r K a b c pts : det r <> 0 -> 0 < a -> 0 < b -> 0 < c -> metric r K (terms_H81oI (/ (a * a)) (/ (b * b)) (/ (c * c))) -> hpkot_table_81 a b c = Ok pts -> same_letters r pts /\ planes_ok r pts planes_H81oI.
Proof.
  intros DR Ha Hb Hc MET H. sym_start H hpkot_table_81. unfold terms_H81oI in *. split.
  - apply like_first_all.
    apply Forall_cons; [lf_self|]. (* GAMMA *)
    apply Forall_cons; [lf_self|]. (* X *)
    apply Forall_cons; [lf_self|]. (* S *)
    apply Forall_cons; [lf_self|]. (* R *)
    apply Forall_cons; [lf_self|]. (* T *)
    apply Forall_cons; [lf_self|]. (* W *)
    apply Forall_cons; [lf_self|]. (* SIGMA0 *)
    apply Forall_cons; [lf_self|]. (* F0 *)
    apply Forall_cons; [lf_self|]. (* LAMBDA0 *)
    apply Forall_cons; [lf_self|]. (* G0 *)
    apply Forall_cons; [lf_self|]. (* V0 *)
    apply Forall_cons; [lf_self|]. (* H0 *)
    apply Forall_cons; [lf_by DR MET (Zm 0 1 (-1) 1 0 (-1) 0 0 (-1)) (Zm 0 1 (-1) 1 0 (-1) 0 0 (-1)) (Zv 0 0 1)|]. (* H2 *)
    apply Forall_nil.
  - unfold planes_ok, planes_H81oI.
    apply Forall_cons; [eexists; split; [in_table|]; cbn [snd]; on_pl MET; apply Forall_nil|]. (* X *)
    apply Forall_cons; [eexists; split; [in_table|]; cbn [snd]; on_pl MET; apply Forall_nil|]. (* F0 *)
    apply Forall_cons; [eexists; split; [in_table|]; cbn [snd]; on_pl MET; apply Forall_nil|]. (* G0 *)
    apply Forall_cons; [eexists; split; [in_table|]; cbn [snd]; on_pl MET; apply Forall_nil|]. (* R *)
    apply Forall_cons; [eexists; split; [in_table|]; cbn [snd]; on_pl MET; on_pl MET; on_pl MET; apply Forall_nil|]. (* W *)
    apply Forall_cons; [eexists; split; [in_table|]; cbn [snd]; on_pl MET; apply Forall_nil|]. (* S *)
    apply Forall_cons; [eexists; split; [in_table|]; cbn [snd]; on_pl MET; apply Forall_nil|]. (* T *)
    apply Forall_nil.
Qed.
Definition planes_H82oC : planes := [("Y", [Zv (-1) 1 0]); ("C0", [Zv (-1) 1 0]); ("Z", [Zv 0 0 1]); ("A0", [Zv 0 0 1]); ("E0", [Zv 0 0 1]); ("T", [Zv 0 0 1; Zv (-1) 1 0]); ("S", [Zv 0 1 0]); ("R", [Zv 0 1 0; Zv 0 0 1])].
Lemma sym_H82oC r K a b c pts : det r <> 0 -> 0 < a -> 0 < b -> 0 < c -> metric r K (terms_H82oC (/ (a * a)) (/ (b * b)) (/ (c * c))) -> hpkot_table_82 a b c "oC" = Ok pts -> same_letters r pts /\ planes_ok r pts planes_H82oC.
Proof.
  intros DR Ha Hb Hc MET H. sym_start H hpkot_table_82. unfold terms_H82oC in *. split.
  - apply like_first_all.
    apply Forall_cons; [lf_self|]. (* GAMMA *)
    apply Forall_cons; [lf_self|]. (* Y *)
    apply Forall_cons; [lf_self|]. (* T *)
    apply Forall_cons; [lf_self|]. (* Z *)
    apply Forall_cons; [lf_self|]. (* S *)
    apply Forall_cons; [lf_self|]. (* R *)
    apply Forall_cons; [lf_self|]. (* SIGMA0 *)
    apply Forall_cons; [lf_self|]. (* C0 *)
    apply Forall_cons; [lf_self|]. (* A0 *)
    apply Forall_cons; [lf_self|]. (* E0 *)
    apply Forall_nil.
  - unfold planes_ok, planes_H82oC.
    apply Forall_cons; [eexists; split; [in_table|]; cbn [snd]; on_pl MET; apply Forall_nil|]. (* Y *)
    apply Forall_cons; [eexists; split; [in_table|]; cbn [snd]; on_pl MET; apply Forall_nil|]. (* C0 *)
    apply Forall_cons; [eexists; split; [in_table|]; cbn [snd]; on_pl MET; apply Forall_nil|]. (* Z *)
    apply Forall_cons; [eexists; split; [in_table|]; cbn [snd]; on_pl MET; apply Forall_nil|]. (* A0 *)
    apply Forall_cons; [eexists; split; [in_table|]; cbn [snd]; on_pl MET; apply Forall_nil|]. (* E0 *)
    apply Forall_cons; [eexists; split; [in_table|]; cbn [snd]; on_pl MET; on_pl MET; apply Forall_nil|]. (* T *)
    apply Forall_cons; [eexists; split; [in_table|]; cbn [snd]; on_pl MET; apply Forall_nil|]. (* S *)
    apply Forall_cons; [eexists; split; [in_table|]; cbn [snd]; on_pl MET; on_pl MET; apply Forall_nil|]. (* R *)
    apply Forall_nil.
Qed.
Definition planes_H82oA : planes := [("Y", [Zv (-1) 1 0]); ("C0", [Zv (-1) 1 0]); ("Z", [Zv 0 0 1]); ("A0", [Zv 0 0 1]); ("E0", [Zv 0 0 1]); ("T", [Zv 0 0 1; Zv (-1) 1 0]); ("S", [Zv 0 1 0]); ("R", [Zv 0 1 0; Zv 0 0 1])].
Lemma sym_H82oA r K a b c pts : det r <> 0 -> 0 < a -> 0 < b -> 0 < c -> metric r K (terms_H82oA (/ (a * a)) (/ (b * b)) (/ (c * c))) -> hpkot_table_82 a b c "oA" = Ok pts -> same_letters r pts /\ planes_ok r pts planes_H82oA.
Proof.
  intros DR Ha Hb Hc MET H. sym_start H hpkot_table_82. unfold terms_H82oA in *. split.
  - apply like_first_all.
    apply Forall_cons; [lf_self|]. (* GAMMA *)
    apply Forall_cons; [lf_self|]. (* Y *)
    apply Forall_cons; [lf_self|]. (* T *)
    apply Forall_cons; [lf_self|]. (* Z *)
    apply Forall_cons; [lf_self|]. (* S *)
    apply Forall_cons; [lf_self|]. (* R *)
    apply Forall_cons; [lf_self|]. (* SIGMA0 *)
    apply Forall_cons; [lf_self|]. (* C0 *)
    apply Forall_cons; [lf_self|]. (* A0 *)
    apply Forall_cons; [lf_self|]. (* E0 *)
    apply Forall_nil.
  - unfold planes_ok, planes_H82oA.
    apply Forall_cons; [eexists; split; [in_table|]; cbn [snd]; on_pl MET; apply Forall_nil|]. (* Y *)
    apply Forall_cons; [eexists; split; [in_table|]; cbn [snd]; on_pl MET; apply Forall_nil|]. (* C0 *)
    apply Forall_cons; [eexists; split; [in_table|]; cbn [snd]; on_pl MET; apply Forall_nil|]. (* Z *)
    apply Forall_cons; [eexists; split; [in_table|]; cbn [snd]; on_pl MET; apply Forall_nil|]. (* A0 *)
    apply Forall_cons; [eexists; split; [in_table|]; cbn [snd]; on_pl MET; apply Forall_nil|]. (* E0 *)
    apply Forall_cons; [eexists; split; [in_table|]; cbn [snd]; on_pl MET; on_pl MET; apply Forall_nil|]. (* T *)
    apply Forall_cons; [eexists; split; [in_table|]; cbn [snd]; on_pl MET; apply Forall_nil|]. (* S *)
    apply Forall_cons; [eexists; split; [in_table|]; cbn [snd]; on_pl MET; on_pl MET; apply Forall_nil|]. (* R *)
    apply Forall_nil.
Qed.
Definition planes_H83oC : planes := [("Y", [Zv 1 1 0]); ("F0", [Zv 1 1 0]); ("Z", [Zv 0 0 1]); ("B0", [Zv 0 0 1]); ("G0", [Zv 0 0 1]); ("T", [Zv 0 0 1; Zv 1 1 0]); ("S", [Zv 0 1 0]); ("R", [Zv 0 1 0; Zv 0 0 1])].
Lemma sym_H83oC r K a b c pts : det r <> 0 -> 0 < a -> 0 < b -> 0 < c -> metric r K (terms_H83oC (/ (a * a)) (/ (b * b)) (/ (c * c))) -> hpkot_table_83 a b c "oC" = Ok pts -> same_letters r pts /\ planes_ok r pts planes_H83oC.
Proof.
  intros DR Ha Hb Hc MET H. sym_start H hpkot_table_83. unfold terms_H83oC in *. split.
  - apply like_first_all.
    apply Forall_cons; [lf_self|]. (* GAMMA *)
    apply Forall_cons; [lf_self|]. (* Y *)
    apply Forall_cons; [lf_self|]. (* T *)
    apply Forall_cons; [lf_same (Zv 0 0 (-1))|]. (* T2 *)
    apply Forall_cons; [lf_self|]. (* Z *)
    apply Forall_cons; [lf_same (Zv 0 0 (-1))|]. (* Z2 *)
    apply Forall_cons; [lf_self|]. (* S *)
    apply Forall_cons; [lf_self|]. (* R *)
    apply Forall_cons; [lf_same (Zv 0 0 (-1))|]. (* R2 *)
    apply Forall_cons; [lf_self|]. (* DELTA0 *)
    apply Forall_cons; [lf_self|]. (* F0 *)
    apply Forall_cons; [lf_self|]. (* B0 *)
    apply Forall_cons; [lf_same (Zv 0 0 (-1))|]. (* B2 *)
    apply Forall_cons; [lf_self|]. (* G0 *)
    apply Forall_cons; [lf_same (Zv 0 0 (-1))|]. (* G2 *)
    apply Forall_nil.
  - unfold planes_ok, planes_H83oC.
    apply Forall_cons; [eexists; split; [in_table|]; cbn [snd]; on_pl MET; apply Forall_nil|]. (* Y *)
    apply Forall_cons; [eexists; split; [in_table|]; cbn [snd]; on_pl MET; apply Forall_nil|]. (* F0 *)
    apply Forall_cons; [eexists; split; [in_table|]; cbn [snd]; on_pl MET; apply Forall_nil|]. (* Z *)
    apply Forall_cons; [eexists; split; [in_table|]; cbn [snd]; on_pl MET; apply Forall_nil|]. (* B0 *)
    apply Forall_cons; [eexists; split; [in_table|]; cbn [snd]; on_pl MET; apply Forall_nil|]. (* G0 *)
    apply Forall_cons; [eexists; split; [in_table|]; cbn [snd]; on_pl MET; on_pl MET; apply Forall_nil|]. (* T *)
    apply Forall_cons; [eexists; split; [in_table|]; cbn [snd]; on_pl MET; apply Forall_nil|]. (* S *)
    apply Forall_cons; [eexists; split; [in_table|]; cbn [snd]; on_pl MET; on_pl MET; apply Forall_nil|]. (* R *)
    apply Forall_nil.
Qed.
Definition planes_H83oA : planes := [("Y", [Zv 1 1 0]); ("F0", [Zv 1 1 0]); ("Z", [Zv 0 0 1]); ("B0", [Zv 0 0 1]); ("G0", [Zv 0 0 1]); ("T", [Zv 0 0 1; Zv 1 1 0]); ("S", [Zv 0 1 0]); ("R", [Zv 0 1 0; Zv 0 0 1])].
Lemma sym_H83oA r K a b c pts : det r <> 0 -> 0 < a -> 0 < b -> 0 < c -> metric r K (terms_H83oA (/ (a * a)) (/ (b * b)) (/ (c * c))) -> hpkot_table_83 a b c "oA" = Ok pts -> same_letters r pts /\ planes_ok r pts planes_H83oA.
Proof.
  intros DR Ha Hb Hc MET H. sym_start H hpkot_table_83. unfold terms_H83oA in *. split.
  - apply like_first_all.
    apply Forall_cons; [lf_self|]. (* GAMMA *)
    apply Forall_cons; [lf_self|]. (* Y *)
    apply Forall_cons; [lf_self|]. (* T *)
    apply Forall_cons; [lf_same (Zv 0 0 (-1))|]. (* T2 *)
    apply Forall_cons; [lf_self|]. (* Z *)
    apply Forall_cons; [lf_same (Zv 0 0 (-1))|]. (* Z2 *)
    apply Forall_cons; [lf_self|]. (* S *)
    apply Forall_cons; [lf_self|]. (* R *)
    apply Forall_cons; [lf_same (Zv 0 0 (-1))|]. (* R2 *)
    apply Forall_cons; [lf_self|]. (* DELTA0 *)
    apply Forall_cons; [lf_self|]. (* F0 *)
    apply Forall_cons; [lf_self|]. (* B0 *)
    apply Forall_cons; [lf_same (Zv 0 0 (-1))|]. (* B2 *)
    apply Forall_cons; [lf_self|]. (* G0 *)
    apply Forall_cons; [lf_same (Zv 0 0 (-1))|]. (* G2 *)
    apply Forall_nil.
  - unfold planes_ok, planes_H83oA.
    apply Forall_cons; [eexists; split; [in_table|]; cbn [snd]; on_pl MET; apply Forall_nil|]. (* Y *)
    apply Forall_cons; [eexists; split; [in_table|]; cbn [snd]; on_pl MET; apply Forall_nil|]. (* F0 *)
    apply Forall_cons; [eexists; split; [in_table|]; cbn [snd]; on_pl MET; apply Forall_nil|]. (* Z *)
    apply Forall_cons; [eexists; split; [in_table|]; cbn [snd]; on_pl MET; apply Forall_nil|]. (* B0 *)
    apply Forall_cons; [eexists; split; [in_table|]; cbn [snd]; on_pl MET; apply Forall_nil|]. (* G0 *)
    apply Forall_cons; [eexists; split; [in_table|]; cbn [snd]; on_pl MET; on_pl MET; apply Forall_nil|]. (* T *)
    apply Forall_cons; [eexists; split; [in_table|]; cbn [snd]; on_pl MET; apply Forall_nil|]. (* S *)
    apply Forall_cons; [eexists; split; [in_table|]; cbn [snd]; on_pl MET; on_pl MET; apply Forall_nil|]. (* R *)
    apply Forall_nil.
Qed.
Definition planes_H84hP : planes := [("M", [Zv 1 0 0]); ("K", [Zv 1 0 0]); ("A", [Zv 0 0 1]); ("L", [Zv 0 0 1; Zv 1 0 0]); ("H", [Zv 0 0 1; Zv 1 0 0]); ("H2", [Zv 1 0 0])].
Lemma sym_H84hP r K a c pts : det r <> 0 -> 0 < a -> 0 < c -> metric r K (terms_H84hP (2 / (3 * (a * a))) (/ (c * c))) -> hpkot_table_84 = Ok pts -> same_letters r pts /\ planes_ok r pts planes_H84hP.
Proof.
  intros DR Ha Hc MET H. sym_start H hpkot_table_84. unfold terms_H84hP in *. split.
  - apply like_first_all.
    apply Forall_cons; [lf_self|]. (* GAMMA *)
    apply Forall_cons; [lf_self|]. (* A *)
    apply Forall_cons; [lf_self|]. (* K *)
    apply Forall_cons; [lf_self|]. (* H *)
    apply Forall_cons; [lf_same (Zv 0 0 (-1))|]. (* H2 *)
    apply Forall_cons; [lf_self|]. (* M *)
    apply Forall_cons; [lf_self|]. (* L *)
    apply Forall_nil.
  - unfold planes_ok, planes_H84hP.
    apply Forall_cons; [eexists; split; [in_table|]; cbn [snd]; on_pl MET; apply Forall_nil|]. (* M *)
    apply Forall_cons; [eexists; split; [in_table|]; cbn [snd]; on_pl MET; apply Forall_nil|]. (* K *)
    apply Forall_cons; [eexists; split; [in_table|]; cbn [snd]; on_pl MET; apply Forall_nil|]. (* A *)
    apply Forall_cons; [eexists; split; [in_table|]; cbn [snd]; on_pl MET; on_pl MET; apply Forall_nil|]. (* L *)
    apply Forall_cons; [eexists; split; [in_table|]; cbn [snd]; on_pl MET; on_pl MET; apply Forall_nil|]. (* H *)
    apply Forall_cons; [eexists; split; [in_table|]; cbn [snd]; on_pl MET; apply Forall_nil|]. (* H2 *)
    apply Forall_nil.
Qed.
Definition planes_H85hR : planes := [("T", [Zv 1 1 1]); ("H2", [Zv 1 1 1]); ("H0", [Zv 1 0 0]); ("L", [Zv 1 0 0]); ("S2", [Zv 1 0 1]); ("F", [Zv 1 0 1])].
Lemma sym_H85hR r K a c pts : det r <> 0 -> 0 < a -> 0 < c -> metric r K (terms_H85hR (2 / (3 * (a * a))) (/ (c * c))) -> hpkot_table_85 a c = Ok pts -> same_letters r pts /\ planes_ok r pts planes_H85hR.
Proof.
  intros DR Ha Hc MET H. sym_start H hpkot_table_85. unfold terms_H85hR in *. split.
  - apply like_first_all.
    apply Forall_cons; [lf_self|]. (* GAMMA *)
    apply Forall_cons; [lf_self|]. (* T *)
    apply Forall_cons; [lf_self|]. (* L *)
    apply Forall_cons; [lf_by DR MET (Zm 0 (-1) 0 (-1) 0 0 0 0 (-1)) (Zm 0 (-1) 0 (-1) 0 0 0 0 (-1)) (Zv 0 0 0)|]. (* L2 *)
    apply Forall_cons; [lf_by DR MET (Zm 0 0 (-1) (-1) 0 0 0 (-1) 0) (Zm 0 (-1) 0 0 0 (-1) (-1) 0 0) (Zv 0 0 0)|]. (* L4 *)
    apply Forall_cons; [lf_self|]. (* F *)
    apply Forall_cons; [lf_by DR MET (Zm (-1) 0 0 0 0 (-1) 0 (-1) 0) (Zm (-1) 0 0 0 0 (-1) 0 (-1) 0) (Zv 1 1 0)|]. (* F2 *)
    apply Forall_cons; [lf_self|]. (* S0 *)
    apply Forall_cons; [lf_by DR MET (Zm (-1) 0 0 0 0 (-1) 0 (-1) 0) (Zm (-1) 0 0 0 0 (-1) 0 (-1) 0) (Zv 1 0 0)|]. (* S2 *)
    apply Forall_cons; [lf_by DR MET (Zm 0 0 (-1) (-1) 0 0 0 (-1) 0) (Zm 0 (-1) 0 0 0 (-1) (-1) 0 0) (Zv 0 0 0)|]. (* S4 *)
    apply Forall_cons; [lf_opposite (Zv 1 0 0)|]. (* S6 *)
    apply Forall_cons; [lf_self|]. (* H0 *)
    apply Forall_cons; [lf_by DR MET (Zm 0 0 (-1) 0 (-1) 0 (-1) 0 0) (Zm 0 0 (-1) 0 (-1) 0 (-1) 0 0) (Zv 1 0 1)|]. (* H2 *)
    apply Forall_cons; [lf_by DR MET (Zm 0 (-1) 0 0 0 (-1) (-1) 0 0) (Zm 0 0 (-1) (-1) 0 0 0 (-1) 0) (Zv 1 1 0)|]. (* H4 *)
    apply Forall_cons; [lf_opposite (Zv 1 0 0)|]. (* H6 *)
    apply Forall_cons; [lf_self|]. (* M0 *)
    apply Forall_cons; [lf_opposite (Zv 1 0 1)|]. (* M2 *)
    apply Forall_cons; [lf_by DR MET (Zm 0 0 1 1 0 0 0 1 0) (Zm 0 1 0 0 0 1 1 0 0) (Zv 1 0 0)|]. (* M4 *)
    apply Forall_cons; [lf_by DR MET (Zm (-1) 0 0 0 0 (-1) 0 (-1) 0) (Zm (-1) 0 0 0 0 (-1) 0 (-1) 0) (Zv 1 1 0)|]. (* M6 *)
    apply Forall_cons; [lf_by DR MET (Zm 0 1 0 0 0 1 1 0 0) (Zm 0 0 1 1 0 0 0 1 0) (Zv 0 0 0)|]. (* M8 *)
    apply Forall_nil.
  - unfold planes_ok, planes_H85hR.
    apply Forall_cons; [eexists; split; [in_table|]; cbn [snd]; on_pl MET; apply Forall_nil|]. (* T *)
    apply Forall_cons; [eexists; split; [in_table|]; cbn [snd]; on_pl MET; apply Forall_nil|]. (* H2 *)
    apply Forall_cons; [eexists; split; [in_table|]; cbn [snd]; on_pl MET; apply Forall_nil|]. (* H0 *)
    apply Forall_cons; [eexists; split; [in_table|]; cbn [snd]; on_pl MET; apply Forall_nil|]. (* L *)
    apply Forall_cons; [eexists; split; [in_table|]; cbn [snd]; on_pl MET; apply Forall_nil|]. (* S2 *)
    apply Forall_cons; [eexists; split; [in_table|]; cbn [snd]; on_pl MET; apply Forall_nil|]. (* F *)
    apply Forall_nil.
Qed.
Definition planes_H86hR : planes := [("L", [Zv 1 0 0]); ("T", [Zv 1 0 0; Zv 0 (-1) 1]); ("P0", [Zv 0 (-1) 1])].
Lemma sym_H86hR r K a c pts : det r <> 0 -> 0 < a -> 0 < c -> metric r K (terms_H86hR (2 / (3 * (a * a))) (/ (c * c))) -> hpkot_table_86 a c = Ok pts -> same_letters r pts /\ planes_ok r pts planes_H86hR.
Proof.
  intros DR Ha Hc MET H. sym_start H hpkot_table_86. unfold terms_H86hR in *. split.
  - apply like_first_all.
    apply Forall_cons; [lf_self|]. (* GAMMA *)
    apply Forall_cons; [lf_self|]. (* T *)
    apply Forall_cons; [lf_self|]. (* P0 *)
    apply Forall_cons; [lf_same (Zv 0 1 0)|]. (* P2 *)
    apply Forall_cons; [lf_self|]. (* R0 *)
    apply Forall_cons; [lf_self|]. (* M *)
    apply Forall_cons; [lf_opposite (Zv 1 (-1) 0)|]. (* M2 *)
    apply Forall_cons; [lf_self|]. (* L *)
    apply Forall_cons; [lf_self|]. (* F *)
    apply Forall_nil.
  - unfold planes_ok, planes_H86hR.
    apply Forall_cons; [eexists; split; [in_table|]; cbn [snd]; on_pl MET; apply Forall_nil|]. (* L *)
    apply Forall_cons; [eexists; split; [in_table|]; cbn [snd]; on_pl MET; on_pl MET; apply Forall_nil|]. (* T *)
    apply Forall_cons; [eexists; split; [in_table|]; cbn [snd]; on_pl MET; apply Forall_nil|]. (* P0 *)
    apply Forall_nil.
Qed.
Definition planes_H87mP : planes := [("Z", [Zv 0 1 0]); ("D", [Zv 0 1 0; Zv 0 0 1]); ("B", [Zv 0 0 1]); ("A", [Zv (-1) 0 1]); ("E", [Zv (-1) 0 1; Zv 0 1 0]); ("C2", [Zv 0 1 0; Zv (-1) 0 0]); ("Y2", [Zv (-1) 0 0])].
Lemma sym_H87mP r K a b c beta pts : det r <> 0 -> 0 < a -> 0 < b -> 0 < c -> sin (beta * TORADIANS) <> 0 -> metric r K (terms_H87mP (/ (a * a * (sin (beta * TORADIANS) * sin (beta * TORADIANS)))) (/ (b * b)) (/ (c * c * (sin (beta * TORADIANS) * sin (beta * TORADIANS)))) (- cos (beta * TORADIANS) / (a * c * (sin (beta * TORADIANS) * sin (beta * TORADIANS))))) -> hpkot_table_87 a c beta = Ok pts -> same_letters r pts /\ planes_ok r pts planes_H87mP.
Proof.
  intros DR Ha Hb Hc HS MET H. sym_start H hpkot_table_87. unfold terms_H87mP in *. pyth (beta * TORADIANS) q s. split.
  - apply like_first_all.
    apply Forall_cons; [lf_self|]. (* GAMMA *)
    apply Forall_cons; [lf_self|]. (* Z *)
    apply Forall_cons; [lf_self|]. (* B *)
    apply Forall_cons; [lf_same (Zv 0 0 (-1))|]. (* B2 *)
    apply Forall_cons; [lf_self|]. (* Y *)
    apply Forall_cons; [lf_same (Zv (-1) 0 0)|]. (* Y2 *)
    apply Forall_cons; [lf_self|]. (* C *)
    apply Forall_cons; [lf_same (Zv (-1) 0 0)|]. (* C2 *)
    apply Forall_cons; [lf_self|]. (* D *)
    apply Forall_cons; [lf_same (Zv 0 0 (-1))|]. (* D2 *)
    apply Forall_cons; [lf_self|]. (* A *)
    apply Forall_cons; [lf_self|]. (* E *)
    apply Forall_cons; [lf_self|]. (* H *)
    apply Forall_cons; [lf_opposite (Zv (-1) 0 1)|]. (* H2 *)
    apply Forall_cons; [lf_same (Zv 0 0 (-1))|]. (* H4 *)
    apply Forall_cons; [lf_self|]. (* M *)
    apply Forall_cons; [lf_opposite (Zv (-1) 1 1)|]. (* M2 *)
    apply Forall_cons; [lf_same (Zv 0 0 (-1))|]. (* M4 *)
    apply Forall_nil.
  - unfold planes_ok, planes_H87mP.
    apply Forall_cons; [eexists; split; [in_table|]; cbn [snd]; on_pl MET; apply Forall_nil|]. (* Z *)
    apply Forall_cons; [eexists; split; [in_table|]; cbn [snd]; on_pl MET; on_pl MET; apply Forall_nil|]. (* D *)
    apply Forall_cons; [eexists; split; [in_table|]; cbn [snd]; on_pl MET; apply Forall_nil|]. (* B *)
    apply Forall_cons; [eexists; split; [in_table|]; cbn [snd]; on_pl MET; apply Forall_nil|]. (* A *)
    apply Forall_cons; [eexists; split; [in_table|]; cbn [snd]; on_pl MET; on_pl MET; apply Forall_nil|]. (* E *)
    apply Forall_cons; [eexists; split; [in_table|]; cbn [snd]; on_pl MET; on_pl MET; apply Forall_nil|]. (* C2 *)
    apply Forall_cons; [eexists; split; [in_table|]; cbn [snd]; on_pl MET; apply Forall_nil|]. (* Y2 *)
    apply Forall_nil.
Qed.
Definition planes_H88mC : planes := [("C2", [Zv (-1) 1 0]); ("Y2", [Zv (-1) 1 0]); ("M2", [Zv (-1) 1 1]); ("D", [Zv (-1) 1 1]); ("D2", [Zv 0 0 1]); ("A", [Zv 0 0 1])].
Lemma sym_H88mC r K a b c beta pts : det r <> 0 -> 0 < a -> 0 < b -> 0 < c -> sin (beta * TORADIANS) <> 0 -> metric r K (terms_H88mC (/ (a * a * (sin (beta * TORADIANS) * sin (beta * TORADIANS)))) (/ (b * b)) (/ (c * c * (sin (beta * TORADIANS) * sin (beta * TORADIANS)))) (- cos (beta * TORADIANS) / (a * c * (sin (beta * TORADIANS) * sin (beta * TORADIANS))))) -> hpkot_table_88 a b c beta = Ok pts -> same_letters r pts /\ planes_ok r pts planes_H88mC.
Proof.
  intros DR Ha Hb Hc HS MET H. sym_start H hpkot_table_88. unfold terms_H88mC in *. pyth (beta * TORADIANS) q s. split.
  - apply like_first_all.
    apply Forall_cons; [lf_self|]. (* GAMMA *)
    apply Forall_cons; [lf_self|]. (* Y2 *)
    apply Forall_cons; [lf_same (Zv 1 (-1) 0)|]. (* Y4 *)
    apply Forall_cons; [lf_self|]. (* A *)
    apply Forall_cons; [lf_self|]. (* M2 *)
    apply Forall_cons; [lf_self|]. (* V *)
    apply Forall_cons; [lf_by DR MET (Zm 0 (-1) 0 (-1) 0 0 0 0 1) (Zm 0 (-1) 0 (-1) 0 0 0 0 1) (Zv 0 1 0)|]. (* V2 *)
    apply Forall_cons; [lf_self|]. (* L2 *)
    apply Forall_cons; [lf_self|]. (* C *)
    apply Forall_cons; [lf_opposite (Zv 0 1 0)|]. (* C2 *)
    apply Forall_cons; [lf_opposite (Zv 1 0 0)|]. (* C4 *)
    apply Forall_cons; [lf_self|]. (* D *)
    apply Forall_cons; [lf_opposite (Zv 0 1 1)|]. (* D2 *)
    apply Forall_cons; [lf_self|]. (* E *)
    apply Forall_cons; [lf_opposite (Zv (-1) 1 1)|]. (* E2 *)
    apply Forall_cons; [lf_same (Zv 1 (-1) 0)|]. (* E4 *)
    apply Forall_nil.
  - unfold planes_ok, planes_H88mC.
    apply Forall_cons; [eexists; split; [in_table|]; cbn [snd]; on_pl MET; apply Forall_nil|]. (* C2 *)
    apply Forall_cons; [eexists; split; [in_table|]; cbn [snd]; on_pl MET; apply Forall_nil|]. (* Y2 *)
    apply Forall_cons; [eexists; split; [in_table|]; cbn [snd]; on_pl MET; apply Forall_nil|]. (* M2 *)
    apply Forall_cons; [eexists; split; [in_table|]; cbn [snd]; on_pl MET; apply Forall_nil|]. (* D *)
    apply Forall_cons; [eexists; split; [in_table|]; cbn [snd]; on_pl MET; apply Forall_nil|]. (* D2 *)
    apply Forall_cons; [eexists; split; [in_table|]; cbn [snd]; on_pl MET; apply Forall_nil|]. (* A *)
    apply Forall_nil.
Qed.
Definition planes_H89mC : planes := [("Y", [Zv 1 1 0]); ("M", [Zv 1 1 0; Zv 0 0 1]); ("A", [Zv 0 0 1])].
Lemma sym_H89mC r K a b c beta pts : det r <> 0 -> 0 < a -> 0 < b -> 0 < c -> sin (beta * TORADIANS) <> 0 -> metric r K (terms_H89mC (/ (a * a * (sin (beta * TORADIANS) * sin (beta * TORADIANS)))) (/ (b * b)) (/ (c * c * (sin (beta * TORADIANS) * sin (beta * TORADIANS)))) (- cos (beta * TORADIANS) / (a * c * (sin (beta * TORADIANS) * sin (beta * TORADIANS))))) -> hpkot_table_89 a b c beta = Ok pts -> same_letters r pts /\ planes_ok r pts planes_H89mC.
Proof.
  intros DR Ha Hb Hc HS MET H. sym_start H hpkot_table_89. unfold terms_H89mC in *. pyth (beta * TORADIANS) q s. split.
  - apply like_first_all.
    apply Forall_cons; [lf_self|]. (* GAMMA *)
    apply Forall_cons; [lf_self|]. (* Y *)
    apply Forall_cons; [lf_self|]. (* A *)
    apply Forall_cons; [lf_self|]. (* M *)
    apply Forall_cons; [lf_self|]. (* V2 *)
    apply Forall_cons; [lf_self|]. (* L2 *)
    apply Forall_cons; [lf_self|]. (* F *)
    apply Forall_cons; [lf_opposite (Zv 0 1 1)|]. (* F2 *)
    apply Forall_cons; [lf_same (Zv 1 0 0)|]. (* F4 *)
    apply Forall_cons; [lf_self|]. (* H *)
    apply Forall_cons; [lf_opposite (Zv 0 1 1)|]. (* H2 *)
    apply Forall_cons; [lf_opposite (Zv 0 0 1)|]. (* H4 *)
    apply Forall_cons; [lf_self|]. (* G *)
    apply Forall_cons; [lf_opposite (Zv 0 1 0)|]. (* G2 *)
    apply Forall_cons; [lf_opposite (Zv 0 0 0)|]. (* G4 *)
    apply Forall_cons; [lf_same (Zv 1 0 0)|]. (* G6 *)
    apply Forall_nil.
  - unfold planes_ok, planes_H89mC.
    apply Forall_cons; [eexists; split; [in_table|]; cbn [snd]; on_pl MET; apply Forall_nil|]. (* Y *)
    apply Forall_cons; [eexists; split; [in_table|]; cbn [snd]; on_pl MET; on_pl MET; apply Forall_nil|]. (* M *)
    apply Forall_cons; [eexists; split; [in_table|]; cbn [snd]; on_pl MET; apply Forall_nil|]. (* A *)
    apply Forall_nil.
Qed.
Definition planes_H90mC : planes := [("A", [Zv 0 0 1]); ("I2", [Zv 0 0 1]); ("I", [Zv (-1) 1 1]); ("M2", [Zv (-1) 1 1])].
Lemma sym_H90mC r K a b c beta pts : det r <> 0 -> 0 < a -> 0 < b -> 0 < c -> sin (beta * TORADIANS) <> 0 -> metric r K (terms_H90mC (/ (a * a * (sin (beta * TORADIANS) * sin (beta * TORADIANS)))) (/ (b * b)) (/ (c * c * (sin (beta * TORADIANS) * sin (beta * TORADIANS)))) (- cos (beta * TORADIANS) / (a * c * (sin (beta * TORADIANS) * sin (beta * TORADIANS))))) -> hpkot_table_90 a b c beta = Ok pts -> same_letters r pts /\ planes_ok r pts planes_H90mC.
Proof.
  intros DR Ha Hb Hc HS MET H. sym_start H hpkot_table_90. unfold terms_H90mC in *. pyth (beta * TORADIANS) q s. split.
  - apply like_first_all.
    apply Forall_cons; [lf_self|]. (* GAMMA *)
    apply Forall_cons; [lf_self|]. (* Y *)
    apply Forall_cons; [lf_self|]. (* A *)
    apply Forall_cons; [lf_self|]. (* M2 *)
    apply Forall_cons; [lf_self|]. (* V *)
    apply Forall_cons; [lf_by DR MET (Zm 0 (-1) 0 (-1) 0 0 0 0 1) (Zm 0 (-1) 0 (-1) 0 0 0 0 1) (Zv 0 1 0)|]. (* V2 *)
    apply Forall_cons; [lf_self|]. (* L2 *)
    apply Forall_cons; [lf_self|]. (* I *)
    apply Forall_cons; [lf_opposite (Zv 0 1 1)|]. (* I2 *)
    apply Forall_cons; [lf_self|]. (* K *)
    apply Forall_cons; [lf_opposite (Zv (-1) 1 1)|]. (* K2 *)
    apply Forall_cons; [lf_same (Zv 1 0 0)|]. (* K4 *)
    apply Forall_cons; [lf_self|]. (* H *)
    apply Forall_cons; [lf_opposite (Zv 0 1 1)|]. (* H2 *)
    apply Forall_cons; [lf_opposite (Zv 0 0 1)|]. (* H4 *)
    apply Forall_cons; [lf_self|]. (* N *)
    apply Forall_cons; [lf_opposite (Zv 0 1 0)|]. (* N2 *)
    apply Forall_cons; [lf_opposite (Zv 0 0 0)|]. (* N4 *)
    apply Forall_cons; [lf_same (Zv 1 0 0)|]. (* N6 *)
    apply Forall_nil.
  - unfold planes_ok, planes_H90mC.
    apply Forall_cons; [eexists; split; [in_table|]; cbn [snd]; on_pl MET; apply Forall_nil|]. (* A *)
    apply Forall_cons; [eexists; split; [in_table|]; cbn [snd]; on_pl MET; apply Forall_nil|]. (* I2 *)
    apply Forall_cons; [eexists; split; [in_table|]; cbn [snd]; on_pl MET; apply Forall_nil|]. (* I *)
    apply Forall_cons; [eexists; split; [in_table|]; cbn [snd]; on_pl MET; apply Forall_nil|]. (* M2 *)
    apply Forall_nil.
Qed.
Definition planes_H91aP : planes := [].
Lemma sym_H91aP r pts : det r <> 0 -> hpkot_table_91 = Ok pts -> same_letters r pts /\ planes_ok r pts planes_H91aP.
Proof.
  intros DR H. sym_start H hpkot_table_91. split.
  - apply like_first_all.
    apply Forall_cons; [lf_self|]. (* GAMMA *)
    apply Forall_cons; [lf_self|]. (* Z *)
    apply Forall_cons; [lf_self|]. (* Y *)
    apply Forall_cons; [lf_self|]. (* X *)
    apply Forall_cons; [lf_self|]. (* V *)
    apply Forall_cons; [lf_self|]. (* U *)
    apply Forall_cons; [lf_self|]. (* T *)
    apply Forall_cons; [lf_self|]. (* R *)
    apply Forall_nil.
  - unfold planes_ok, planes_H91aP.
    apply Forall_nil.
Qed.
Definition planes_H92aP : planes := [].
Lemma sym_H92aP r pts : det r <> 0 -> hpkot_table_92 = Ok pts -> same_letters r pts /\ planes_ok r pts planes_H92aP.
Proof.
  intros DR H. sym_start H hpkot_table_92. split.
  - apply like_first_all.
    apply Forall_cons; [lf_self|]. (* GAMMA *)
    apply Forall_cons; [lf_self|]. (* Z *)
    apply Forall_cons; [lf_self|]. (* Y *)
    apply Forall_cons; [lf_same (Zv 0 (-1) 0)|]. (* Y2 *)
    apply Forall_cons; [lf_self|]. (* X *)
    apply Forall_cons; [lf_self|]. (* V2 *)
    apply Forall_cons; [lf_self|]. (* U2 *)
    apply Forall_cons; [lf_self|]. (* T2 *)
    apply Forall_cons; [lf_self|]. (* R2 *)
    apply Forall_nil.
  - unfold planes_ok, planes_H92aP.
    apply Forall_nil.
Qed.
Definition planes_S2cP : planes := [("X", [Zv 0 1 0]); ("M", [Zv 0 1 0]); ("R", [Zv 0 1 0])].
Lemma sym_S2cP r K a pts : det r <> 0 -> 0 < a -> metric r K (terms_H69cP (/ (a * a)) (/ (a * a)) (/ (a * a))) -> sc_table_2 = Ok pts -> same_letters r pts /\ planes_ok r pts planes_S2cP.
Proof.
  intros DR Ha MET H. sym_start H sc_table_2. unfold terms_H69cP in *. split.
  - apply like_first_all.
    apply Forall_cons; [lf_self|]. (* GAMMA *)
    apply Forall_cons; [lf_self|]. (* M *)
    apply Forall_cons; [lf_self|]. (* R *)
    apply Forall_cons; [lf_self|]. (* X *)
    apply Forall_nil.
  - unfold planes_ok, planes_S2cP.
    apply Forall_cons; [eexists; split; [in_table|]; cbn [snd]; on_pl MET; apply Forall_nil|]. (* X *)
    apply Forall_cons; [eexists; split; [in_table|]; cbn [snd]; on_pl MET; apply Forall_nil|]. (* M *)
    apply Forall_cons; [eexists; split; [in_table|]; cbn [snd]; on_pl MET; apply Forall_nil|]. (* R *)
    apply Forall_nil.
Qed.
Definition planes_S3cF : planes := [("X", [Zv 1 0 1]); ("W", [Zv 1 0 1; Zv 1 1 1]); ("K", [Zv 1 1 1]); ("L", [Zv 1 1 1]); ("U", [Zv 1 1 1; Zv 1 0 1])].
Lemma sym_S3cF r K a pts : det r <> 0 -> 0 < a -> metric r K (terms_H70cF (/ (a * a)) (/ (a * a)) (/ (a * a))) -> sc_table_3 = Ok pts -> same_letters r pts /\ planes_ok r pts planes_S3cF.
Proof.
  intros DR Ha MET H. sym_start H sc_table_3. unfold terms_H70cF in *. split.
  - apply like_first_all.
    apply Forall_cons; [lf_self|]. (* GAMMA *)
    apply Forall_cons; [lf_self|]. (* K *)
    apply Forall_cons; [lf_self|]. (* L *)
    apply Forall_cons; [lf_self|]. (* U *)
    apply Forall_cons; [lf_self|]. (* W *)
    apply Forall_cons; [lf_self|]. (* X *)
    apply Forall_nil.
  - unfold planes_ok, planes_S3cF.
    apply Forall_cons; [eexists; split; [in_table|]; cbn [snd]; on_pl MET; apply Forall_nil|]. (* X *)
    apply Forall_cons; [eexists; split; [in_table|]; cbn [snd]; on_pl MET; on_pl MET; apply Forall_nil|]. (* W *)
    apply Forall_cons; [eexists; split; [in_table|]; cbn [snd]; on_pl MET; apply Forall_nil|]. (* K *)
    apply Forall_cons; [eexists; split; [in_table|]; cbn [snd]; on_pl MET; apply Forall_nil|]. (* L *)
    apply Forall_cons; [eexists; split; [in_table|]; cbn [snd]; on_pl MET; on_pl MET; apply Forall_nil|]. (* U *)
    apply Forall_nil.
Qed.
Definition planes_S4cI : planes := [("H", [Zv 0 0 1]); ("N", [Zv 0 0 1]); ("P", [Zv 0 0 1])].
Lemma sym_S4cI r K a pts : det r <> 0 -> 0 < a -> metric r K (terms_H71cI (/ (a * a))) -> sc_table_4 = Ok pts -> same_letters r pts /\ planes_ok r pts planes_S4cI.
Proof.
  intros DR Ha MET H. sym_start H sc_table_4. unfold terms_H71cI in *. split.
  - apply like_first_all.
    apply Forall_cons; [lf_self|]. (* GAMMA *)
    apply Forall_cons; [lf_self|]. (* H *)
    apply Forall_cons; [lf_self|]. (* P *)
    apply Forall_cons; [lf_self|]. (* N *)
    apply Forall_nil.
  - unfold planes_ok, planes_S4cI.
    apply Forall_cons; [eexists; split; [in_table|]; cbn [snd]; on_pl MET; apply Forall_nil|]. (* H *)
    apply Forall_cons; [eexists; split; [in_table|]; cbn [snd]; on_pl MET; apply Forall_nil|]. (* N *)
    apply Forall_cons; [eexists; split; [in_table|]; cbn [snd]; on_pl MET; apply Forall_nil|]. (* P *)
    apply Forall_nil.
Qed.
Definition planes_S5tP : planes := [("X", [Zv 0 1 0]); ("M", [Zv 0 1 0]); ("Z", [Zv 0 0 1]); ("R", [Zv 0 0 1; Zv 0 1 0]); ("A", [Zv 0 0 1; Zv 0 1 0])].
Lemma sym_S5tP r K a c pts : det r <> 0 -> 0 < a -> 0 < c -> metric r K (terms_H69cP (/ (a * a)) (/ (a * a)) (/ (c * c))) -> sc_table_5 = Ok pts -> same_letters r pts /\ planes_ok r pts planes_S5tP.
Proof.
  intros DR Ha Hc MET H. sym_start H sc_table_5. unfold terms_H69cP in *. split.
  - apply like_first_all.
    apply Forall_cons; [lf_self|]. (* GAMMA *)
    apply Forall_cons; [lf_self|]. (* A *)
    apply Forall_cons; [lf_self|]. (* M *)
    apply Forall_cons; [lf_self|]. (* R *)
    apply Forall_cons; [lf_self|]. (* X *)
    apply Forall_cons; [lf_self|]. (* Z *)
    apply Forall_nil.
  - unfold planes_ok, planes_S5tP.
    apply Forall_cons; [eexists; split; [in_table|]; cbn [snd]; on_pl MET; apply Forall_nil|]. (* X *)
    apply Forall_cons; [eexists; split; [in_table|]; cbn [snd]; on_pl MET; apply Forall_nil|]. (* M *)
    apply Forall_cons; [eexists; split; [in_table|]; cbn [snd]; on_pl MET; apply Forall_nil|]. (* Z *)
    apply Forall_cons; [eexists; split; [in_table|]; cbn [snd]; on_pl MET; on_pl MET; apply Forall_nil|]. (* R *)
    apply Forall_cons; [eexists; split; [in_table|]; cbn [snd]; on_pl MET; on_pl MET; apply Forall_nil|]. (* A *)
    apply Forall_nil.
Qed.
Definition planes_S6tI : planes := [("X", [Zv 0 0 1]); ("M", [Zv 0 0 1]); ("Z", [Zv 0 1 0]); ("P", [Zv 0 1 0; Zv 0 0 1]); ("N", [Zv 0 1 0]); ("Z1", [Zv 0 1 0; Zv 0 0 1])].
Lemma sym_S6tI r K a c pts : det r <> 0 -> 0 < a -> 0 < c -> metric r K (terms_H73tI (/ (a * a)) (/ (c * c))) -> sc_table_6 a c = Ok pts -> same_letters r pts /\ planes_ok r pts planes_S6tI.
Proof.
  intros DR Ha Hc MET H. sym_start H sc_table_6. unfold terms_H73tI in *. split.
  - apply like_first_all.
    apply Forall_cons; [lf_self|]. (* GAMMA *)
    apply Forall_cons; [lf_self|]. (* M *)
    apply Forall_cons; [lf_self|]. (* N *)
    apply Forall_cons; [lf_self|]. (* P *)
    apply Forall_cons; [lf_self|]. (* X *)
    apply Forall_cons; [lf_self|]. (* Z *)
    apply Forall_cons; [lf_opposite (Zv 0 1 0)|]. (* Z1 *)
    apply Forall_nil.
  - unfold planes_ok, planes_S6tI.
    apply Forall_cons; [eexists; split; [in_table|]; cbn [snd]; on_pl MET; apply Forall_nil|]. (* X *)
    apply Forall_cons; [eexists; split; [in_table|]; cbn [snd]; on_pl MET; apply Forall_nil|]. (* M *)
    apply Forall_cons; [eexists; split; [in_table|]; cbn [snd]; on_pl MET; apply Forall_nil|]. (* Z *)
    apply Forall_cons; [eexists; split; [in_table|]; cbn [snd]; on_pl MET; on_pl MET; apply Forall_nil|]. (* P *)
    apply Forall_cons; [eexists; split; [in_table|]; cbn [snd]; on_pl MET; apply Forall_nil|]. (* N *)
    apply Forall_cons; [eexists; split; [in_table|]; cbn [snd]; on_pl MET; on_pl MET; apply Forall_nil|]. (* Z1 *)
    apply Forall_nil.
Qed.
Definition planes_S7tI : planes := [("X", [Zv 0 0 1]); ("Y", [Zv 0 0 1; Zv 0 1 0]); ("SIGMA", [Zv 0 1 0]); ("Z", [Zv 1 1 (-1)]); ("SIGMA1", [Zv 1 1 (-1); Zv 0 1 0]); ("N", [Zv 0 1 0]); ("P", [Zv 0 1 0; Zv 0 0 1]); ("Y1", [Zv 0 1 0; Zv 1 1 (-1)])].
Lemma sym_S7tI r K a c pts : det r <> 0 -> 0 < a -> 0 < c -> metric r K (terms_H74tI (/ (a * a)) (/ (a * a)) (/ (c * c))) -> sc_table_7 a c = Ok pts -> same_letters r pts /\ planes_ok r pts planes_S7tI.
Proof.
  intros DR Ha Hc MET H. sym_start H sc_table_7. unfold terms_H74tI in *. split.
  - apply like_first_all.
    apply Forall_cons; [lf_self|]. (* GAMMA *)
    apply Forall_cons; [lf_self|]. (* N *)
    apply Forall_cons; [lf_self|]. (* P *)
    apply Forall_cons; [lf_self|]. (* SIGMA *)
    apply Forall_cons; [lf_opposite (Zv 0 1 0)|]. (* SIGMA1 *)
    apply Forall_cons; [lf_self|]. (* X *)
    apply Forall_cons; [lf_self|]. (* Y *)
    apply Forall_cons; [lf_by DR MET (Zm (-1) 0 1 (-1) 0 0 (-1) 1 0) (Zm 0 (-1) 0 0 (-1) 1 1 (-1) 0) (Zv 1 0 0)|]. (* Y1 *)
    apply Forall_cons; [lf_self|]. (* Z *)
    apply Forall_nil.
  - unfold planes_ok, planes_S7tI.
    apply Forall_cons; [eexists; split; [in_table|]; cbn [snd]; on_pl MET; apply Forall_nil|]. (* X *)
    apply Forall_cons; [eexists; split; [in_table|]; cbn [snd]; on_pl MET; on_pl MET; apply Forall_nil|]. (* Y *)
    apply Forall_cons; [eexists; split; [in_table|]; cbn [snd]; on_pl MET; apply Forall_nil|]. (* SIGMA *)
    apply Forall_cons; [eexists; split; [in_table|]; cbn [snd]; on_pl MET; apply Forall_nil|]. (* Z *)
    apply Forall_cons; [eexists; split; [in_table|]; cbn [snd]; on_pl MET; on_pl MET; apply Forall_nil|]. (* SIGMA1 *)
    apply Forall_cons; [eexists; split; [in_table|]; cbn [snd]; on_pl MET; apply Forall_nil|]. (* N *)
    apply Forall_cons; [eexists; split; [in_table|]; cbn [snd]; on_pl MET; on_pl MET; apply Forall_nil|]. (* P *)
    apply Forall_cons; [eexists; split; [in_table|]; cbn [snd]; on_pl MET; on_pl MET; apply Forall_nil|]. (* Y1 *)
    apply Forall_nil.
Qed.
Definition planes_S8oP : planes := [("X", [Zv 1 0 0]); ("S", [Zv 1 0 0; Zv 0 1 0]); ("Y", [Zv 0 1 0]); ("Z", [Zv 0 0 1]); ("U", [Zv 0 0 1; Zv 1 0 0]); ("R", [Zv 0 0 1; Zv 0 1 0]); ("T", [Zv 0 0 1; Zv 0 1 0])].
Lemma sym_S8oP r K a b c pts : det r <> 0 -> 0 < a -> 0 < b -> 0 < c -> metric r K (terms_H69cP (/ (a * a)) (/ (b * b)) (/ (c * c))) -> sc_table_8 = Ok pts -> same_letters r pts /\ planes_ok r pts planes_S8oP.
Proof.
  intros DR Ha Hb Hc MET H. sym_start H sc_table_8. unfold terms_H69cP in *. split.
  - apply like_first_all.
    apply Forall_cons; [lf_self|]. (* GAMMA *)
    apply Forall_cons; [lf_self|]. (* R *)
    apply Forall_cons; [lf_self|]. (* S *)
    apply Forall_cons; [lf_self|]. (* T *)
    apply Forall_cons; [lf_self|]. (* U *)
    apply Forall_cons; [lf_self|]. (* X *)
    apply Forall_cons; [lf_self|]. (* Y *)
    apply Forall_cons; [lf_self|]. (* Z *)
    apply Forall_nil.
  - unfold planes_ok, planes_S8oP.
    apply Forall_cons; [eexists; split; [in_table|]; cbn [snd]; on_pl MET; apply Forall_nil|]. (* X *)
    apply Forall_cons; [eexists; split; [in_table|]; cbn [snd]; on_pl MET; on_pl MET; apply Forall_nil|]. (* S *)
    apply Forall_cons; [eexists; split; [in_table|]; cbn [snd]; on_pl MET; apply Forall_nil|]. (* Y *)
    apply Forall_cons; [eexists; split; [in_table|]; cbn [snd]; on_pl MET; apply Forall_nil|]. (* Z *)
    apply Forall_cons; [eexists; split; [in_table|]; cbn [snd]; on_pl MET; on_pl MET; apply Forall_nil|]. (* U *)
    apply Forall_cons; [eexists; split; [in_table|]; cbn [snd]; on_pl MET; on_pl MET; apply Forall_nil|]. (* R *)
    apply Forall_cons; [eexists; split; [in_table|]; cbn [snd]; on_pl MET; on_pl MET; apply Forall_nil|]. (* T *)
    apply Forall_nil.
Qed.
Definition planes_S9oF : planes := [("Y", [Zv 1 0 1]); ("T", [Zv 1 0 1; Zv 1 1 0]); ("Z", [Zv 1 1 0]); ("X", [Zv 1 1 1]); ("A1", [Zv 1 1 1; Zv 1 0 1]); ("X1", [Zv 1 1 0]); ("A", [Zv 1 1 1; Zv 1 1 0])].
Lemma sym_S9oF r K a b c pts : det r <> 0 -> 0 < a -> 0 < b -> 0 < c -> metric r K (terms_H76oF (/ (a * a)) (/ (b * b)) (/ (c * c))) -> sc_table_9 a b c = Ok pts -> same_letters r pts /\ planes_ok r pts planes_S9oF.
Proof.
  intros DR Ha Hb Hc MET H. sym_start H sc_table_9. unfold terms_H76oF in *. split.
  - apply like_first_all.
    apply Forall_cons; [lf_self|]. (* GAMMA *)
    apply Forall_cons; [lf_self|]. (* A *)
    apply Forall_cons; [lf_opposite (Zv 1 1 1)|]. (* A1 *)
    apply Forall_cons; [lf_self|]. (* L *)
    apply Forall_cons; [lf_self|]. (* T *)
    apply Forall_cons; [lf_self|]. (* X *)
    apply Forall_cons; [lf_opposite (Zv 1 1 1)|]. (* X1 *)
    apply Forall_cons; [lf_self|]. (* Y *)
    apply Forall_cons; [lf_self|]. (* Z *)
    apply Forall_nil.
  - unfold planes_ok, planes_S9oF.
    apply Forall_cons; [eexists; split; [in_table|]; cbn [snd]; on_pl MET; apply Forall_nil|]. (* Y *)
    apply Forall_cons; [eexists; split; [in_table|]; cbn [snd]; on_pl MET; on_pl MET; apply Forall_nil|]. (* T *)
    apply Forall_cons; [eexists; split; [in_table|]; cbn [snd]; on_pl MET; apply Forall_nil|]. (* Z *)
    apply Forall_cons; [eexists; split; [in_table|]; cbn [snd]; on_pl MET; apply Forall_nil|]. (* X *)
    apply Forall_cons; [eexists; split; [in_table|]; cbn [snd]; on_pl MET; on_pl MET; apply Forall_nil|]. (* A1 *)
    apply Forall_cons; [eexists; split; [in_table|]; cbn [snd]; on_pl MET; apply Forall_nil|]. (* X1 *)
    apply Forall_cons; [eexists; split; [in_table|]; cbn [snd]; on_pl MET; on_pl MET; apply Forall_nil|]. (* A *)
    apply Forall_nil.
Qed.
Definition planes_S10oF : planes := [("Y", [Zv 1 0 1]); ("C", [Zv 1 0 1; Zv 1 1 1]); ("D", [Zv 1 1 1; Zv 0 1 1]); ("X", [Zv 0 1 1]); ("Z", [Zv 1 1 0]); ("D1", [Zv 1 1 0; Zv 1 1 1]); ("H", [Zv 1 1 1; Zv 1 0 1]); ("C1", [Zv 1 1 0]); ("H1", [Zv 0 1 1])].
Lemma sym_S10oF r K a b c pts : det r <> 0 -> 0 < a -> 0 < b -> 0 < c -> metric r K (terms_H70cF (/ (a * a)) (/ (b * b)) (/ (c * c))) -> sc_table_10 a b c = Ok pts -> same_letters r pts /\ planes_ok r pts planes_S10oF.
Proof.
  intros DR Ha Hb Hc MET H. sym_start H sc_table_10. unfold terms_H70cF in *. split.
  - apply like_first_all.
    apply Forall_cons; [lf_self|]. (* GAMMA *)
    apply Forall_cons; [lf_self|]. (* C *)
    apply Forall_cons; [lf_opposite (Zv 1 1 1)|]. (* C1 *)
    apply Forall_cons; [lf_self|]. (* D *)
    apply Forall_cons; [lf_opposite (Zv 1 1 1)|]. (* D1 *)
    apply Forall_cons; [lf_self|]. (* L *)
    apply Forall_cons; [lf_self|]. (* H *)
    apply Forall_cons; [lf_opposite (Zv 1 1 1)|]. (* H1 *)
    apply Forall_cons; [lf_self|]. (* X *)
    apply Forall_cons; [lf_self|]. (* Y *)
    apply Forall_cons; [lf_self|]. (* Z *)
    apply Forall_nil.
  - unfold planes_ok, planes_S10oF.
    apply Forall_cons; [eexists; split; [in_table|]; cbn [snd]; on_pl MET; apply Forall_nil|]. (* Y *)
    apply Forall_cons; [eexists; split; [in_table|]; cbn [snd]; on_pl MET; on_pl MET; apply Forall_nil|]. (* C *)
    apply Forall_cons; [eexists; split; [in_table|]; cbn [snd]; on_pl MET; on_pl MET; apply Forall_nil|]. (* D *)
    apply Forall_cons; [eexists; split; [in_table|]; cbn [snd]; on_pl MET; apply Forall_nil|]. (* X *)
    apply Forall_cons; [eexists; split; [in_table|]; cbn [snd]; on_pl MET; apply Forall_nil|]. (* Z *)
    apply Forall_cons; [eexists; split; [in_table|]; cbn [snd]; on_pl MET; on_pl MET; apply Forall_nil|]. (* D1 *)
    apply Forall_cons; [eexists; split; [in_table|]; cbn [snd]; on_pl MET; on_pl MET; apply Forall_nil|]. (* H *)
    apply Forall_cons; [eexists; split; [in_table|]; cbn [snd]; on_pl MET; apply Forall_nil|]. (* C1 *)
    apply Forall_cons; [eexists; split; [in_table|]; cbn [snd]; on_pl MET; apply Forall_nil|]. (* H1 *)
    apply Forall_nil.
Qed.
Definition planes_S11oI : planes := [("X", [Zv 0 1 0]); ("L", [Zv 0 1 0; Zv 0 0 1]); ("T", [Zv 0 0 1]); ("W", [Zv 0 0 1; Zv 0 1 0; Zv 1 0 0]); ("R", [Zv 0 1 0]); ("X1", [Zv 0 1 0; Zv 1 1 (-1)]); ("Z", [Zv 1 1 (-1)]); ("Y", [Zv 1 0 0]); ("S", [Zv 1 0 0]); ("L1", [Zv 1 0 0]); ("Y1", [Zv 1 1 (-1)])].
Lemma sym_S11oI r K a b c pts : det r <> 0 -> 0 < a -> 0 < b -> 0 < c -> metric r K (terms_H74tI (/ (a * a)) (/ (b * b)) (/ (c * c))) -> sc_table_11 a b c = Ok pts -> same_letters r pts /\ planes_ok r pts planes_S11oI.
Proof.
  intros DR Ha Hb Hc MET H. sym_start H sc_table_11. unfold terms_H74tI in *. split.
  - apply like_first_all.
    apply Forall_cons; [lf_self|]. (* GAMMA *)
    apply Forall_cons; [lf_self|]. (* L *)
    apply Forall_cons; [lf_opposite (Zv 0 0 1)|]. (* L1 *)
    apply Forall_cons; [lf_by DR MET (Zm 0 (-1) 1 0 (-1) 0 1 (-1) 0) (Zm 0 (-1) 1 0 (-1) 0 1 (-1) 0) (Zv 0 1 0)|]. (* L2 *)
    apply Forall_cons; [lf_self|]. (* R *)
    apply Forall_cons; [lf_self|]. (* S *)
    apply Forall_cons; [lf_self|]. (* T *)
    apply Forall_cons; [lf_self|]. (* W *)
    apply Forall_cons; [lf_self|]. (* X *)
    apply Forall_cons; [lf_opposite (Zv 0 1 0)|]. (* X1 *)
    apply Forall_cons; [lf_self|]. (* Y *)
    apply Forall_cons; [lf_opposite (Zv 1 0 0)|]. (* Y1 *)
    apply Forall_cons; [lf_self|]. (* Z *)
    apply Forall_nil.
  - unfold planes_ok, planes_S11oI.
    apply Forall_cons; [eexists; split; [in_table|]; cbn [snd]; on_pl MET; apply Forall_nil|]. (* X *)
    apply Forall_cons; [eexists; split; [in_table|]; cbn [snd]; on_pl MET; on_pl MET; apply Forall_nil|]. (* L *)
    apply Forall_cons; [eexists; split; [in_table|]; cbn [snd]; on_pl MET; apply Forall_nil|]. (* T *)
    apply Forall_cons; [eexists; split; [in_table|]; cbn [snd]; on_pl MET; on_pl MET; on_pl MET; apply Forall_nil|]. (* W *)
    apply Forall_cons; [eexists; split; [in_table|]; cbn [snd]; on_pl MET; apply Forall_nil|]. (* R *)
    apply Forall_cons; [eexists; split; [in_table|]; cbn [snd]; on_pl MET; on_pl MET; apply Forall_nil|]. (* X1 *)
    apply Forall_cons; [eexists; split; [in_table|]; cbn [snd]; on_pl MET; apply Forall_nil|]. (* Z *)
    apply Forall_cons; [eexists; split; [in_table|]; cbn [snd]; on_pl MET; apply Forall_nil|]. (* Y *)
    apply Forall_cons; [eexists; split; [in_table|]; cbn [snd]; on_pl MET; apply Forall_nil|]. (* S *)
    apply Forall_cons; [eexists; split; [in_table|]; cbn [snd]; on_pl MET; apply Forall_nil|]. (* L1 *)
    apply Forall_cons; [eexists; split; [in_table|]; cbn [snd]; on_pl MET; apply Forall_nil|]. (* Y1 *)
    apply Forall_nil.
Qed.
Definition planes_S12oC : planes := [("X", [Zv 0 1 0]); ("S", [Zv 0 1 0]); ("R", [Zv 0 1 0]); ("A", [Zv 0 1 0; Zv 0 0 1]); ("Z", [Zv 0 0 1]); ("Y", [Zv (-1) 1 0]); ("X1", [Zv (-1) 1 0]); ("A1", [Zv (-1) 1 0]); ("T", [Zv (-1) 1 0; Zv 0 0 1])].
Lemma sym_S12oC r K a b c pts : det r <> 0 -> 0 < a -> 0 < b -> 0 < c -> metric r K (terms_H82oC (/ (a * a)) (/ (b * b)) (/ (c * c))) -> sc_table_12 a b = Ok pts -> same_letters r pts /\ planes_ok r pts planes_S12oC.
Proof.
  intros DR Ha Hb Hc MET H. sym_start H sc_table_12. unfold terms_H82oC in *. split.
  - apply like_first_all.
    apply Forall_cons; [lf_self|]. (* GAMMA *)
    apply Forall_cons; [lf_self|]. (* A *)
    apply Forall_cons; [lf_opposite (Zv 0 1 1)|]. (* A1 *)
    apply Forall_cons; [lf_self|]. (* R *)
    apply Forall_cons; [lf_self|]. (* S *)
    apply Forall_cons; [lf_self|]. (* T *)
    apply Forall_cons; [lf_self|]. (* X *)
    apply Forall_cons; [lf_opposite (Zv 0 1 0)|]. (* X1 *)
    apply Forall_cons; [lf_self|]. (* Y *)
    apply Forall_cons; [lf_self|]. (* Z *)
    apply Forall_nil.
  - unfold planes_ok, planes_S12oC.
    apply Forall_cons; [eexists; split; [in_table|]; cbn [snd]; on_pl MET; apply Forall_nil|]. (* X *)
    apply Forall_cons; [eexists; split; [in_table|]; cbn [snd]; on_pl MET; apply Forall_nil|]. (* S *)
    apply Forall_cons; [eexists; split; [in_table|]; cbn [snd]; on_pl MET; apply Forall_nil|]. (* R *)
    apply Forall_cons; [eexists; split; [in_table|]; cbn [snd]; on_pl MET; on_pl MET; apply Forall_nil|]. (* A *)
    apply Forall_cons; [eexists; split; [in_table|]; cbn [snd]; on_pl MET; apply Forall_nil|]. (* Z *)
    apply Forall_cons; [eexists; split; [in_table|]; cbn [snd]; on_pl MET; apply Forall_nil|]. (* Y *)
    apply Forall_cons; [eexists; split; [in_table|]; cbn [snd]; on_pl MET; apply Forall_nil|]. (* X1 *)
    apply Forall_cons; [eexists; split; [in_table|]; cbn [snd]; on_pl MET; apply Forall_nil|]. (* A1 *)
    apply Forall_cons; [eexists; split; [in_table|]; cbn [snd]; on_pl MET; on_pl MET; apply Forall_nil|]. (* T *)
    apply Forall_nil.
Qed.
Definition planes_S13hP : planes := [("M", [Zv 1 0 0]); ("K", [Zv 1 0 0]); ("A", [Zv 0 0 1]); ("L", [Zv 0 0 1; Zv 1 0 0]); ("H", [Zv 0 0 1; Zv 1 0 0])].
Lemma sym_S13hP r K a c pts : det r <> 0 -> 0 < a -> 0 < c -> metric r K (terms_H84hP (2 / (3 * (a * a))) (/ (c * c))) -> sc_table_13 = Ok pts -> same_letters r pts /\ planes_ok r pts planes_S13hP.
Proof.
  intros DR Ha Hc MET H. sym_start H sc_table_13. unfold terms_H84hP in *. split.
  - apply like_first_all.
    apply Forall_cons; [lf_self|]. (* GAMMA *)
    apply Forall_cons; [lf_self|]. (* A *)
    apply Forall_cons; [lf_self|]. (* H *)
    apply Forall_cons; [lf_self|]. (* K *)
    apply Forall_cons; [lf_self|]. (* L *)
    apply Forall_cons; [lf_self|]. (* M *)
    apply Forall_nil.
  - unfold planes_ok, planes_S13hP.
    apply Forall_cons; [eexists; split; [in_table|]; cbn [snd]; on_pl MET; apply Forall_nil|]. (* M *)
    apply Forall_cons; [eexists; split; [in_table|]; cbn [snd]; on_pl MET; apply Forall_nil|]. (* K *)
    apply Forall_cons; [eexists; split; [in_table|]; cbn [snd]; on_pl MET; apply Forall_nil|]. (* A *)
    apply Forall_cons; [eexists; split; [in_table|]; cbn [snd]; on_pl MET; on_pl MET; apply Forall_nil|]. (* L *)
    apply Forall_cons; [eexists; split; [in_table|]; cbn [snd]; on_pl MET; on_pl MET; apply Forall_nil|]. (* H *)
    apply Forall_nil.
Qed.
Definition planes_S14hR : planes := [("L", [Zv 1 0 0]); ("B1", [Zv 1 0 0]); ("B", [Zv 1 1 1]); ("Z", [Zv 1 1 1]); ("Q", [Zv 1 1 0]); ("F", [Zv 1 1 0]); ("P1", [Zv 1 1 0; Zv 1 1 1]); ("P", [Zv 1 0 0])].
Lemma sym_S14hR r K a alpha pts : det r <> 0 -> 0 < a -> cos (alpha * TORADIANS) <> 1 -> 1 + 2 * cos (alpha * TORADIANS) <> 0 -> metric r K (terms_S14hR ((1 + cos (alpha * TORADIANS)) / (a * a * (1 - cos (alpha * TORADIANS)) * (1 + 2 * cos (alpha * TORADIANS)))) (- cos (alpha * TORADIANS) / (a * a * (1 - cos (alpha * TORADIANS)) * (1 + 2 * cos (alpha * TORADIANS))))) -> sc_table_14 alpha = Ok pts -> same_letters r pts /\ planes_ok r pts planes_S14hR.
Proof.
  intros DR Ha HS1 HS2 MET H. sym_start H sc_table_14. unfold terms_S14hR in *. split.
  - apply like_first_all.
    apply Forall_cons; [lf_self|]. (* GAMMA *)
    apply Forall_cons; [lf_self|]. (* B *)
    apply Forall_cons; [lf_by DR MET (Zm 0 (-1) 0 (-1) 0 0 0 0 (-1)) (Zm 0 (-1) 0 (-1) 0 0 0 0 (-1)) (Zv 1 1 0)|]. (* B1 *)
    apply Forall_cons; [lf_self|]. (* F *)
    apply Forall_cons; [lf_self|]. (* L *)
    apply Forall_cons; [lf_by DR MET (Zm 0 0 (-1) (-1) 0 0 0 (-1) 0) (Zm 0 (-1) 0 0 0 (-1) (-1) 0 0) (Zv 0 0 0)|]. (* L1 *)
    apply Forall_cons; [lf_self|]. (* P *)
    apply Forall_cons; [lf_by DR MET (Zm 0 0 (-1) (-1) 0 0 0 (-1) 0) (Zm 0 (-1) 0 0 0 (-1) (-1) 0 0) (Zv 1 1 1)|]. (* P1 *)
    apply Forall_cons; [lf_by DR MET (Zm 0 0 1 0 1 0 1 0 0) (Zm 0 0 1 0 1 0 1 0 0) (Zv 0 0 (-1))|]. (* P2 *)
    apply Forall_cons; [lf_self|]. (* Q *)
    apply Forall_cons; [lf_self|]. (* X *)
    apply Forall_cons; [lf_self|]. (* Z *)
    apply Forall_nil.
  - unfold planes_ok, planes_S14hR.
    apply Forall_cons; [eexists; split; [in_table|]; cbn [snd]; on_pl MET; apply Forall_nil|]. (* L *)
    apply Forall_cons; [eexists; split; [in_table|]; cbn [snd]; on_pl MET; apply Forall_nil|]. (* B1 *)
    apply Forall_cons; [eexists; split; [in_table|]; cbn [snd]; on_pl MET; apply Forall_nil|]. (* B *)
    apply Forall_cons; [eexists; split; [in_table|]; cbn [snd]; on_pl MET; apply Forall_nil|]. (* Z *)
    apply Forall_cons; [eexists; split; [in_table|]; cbn [snd]; on_pl MET; apply Forall_nil|]. (* Q *)
    apply Forall_cons; [eexists; split; [in_table|]; cbn [snd]; on_pl MET; apply Forall_nil|]. (* F *)
    apply Forall_cons; [eexists; split; [in_table|]; cbn [snd]; on_pl MET; on_pl MET; apply Forall_nil|]. (* P1 *)
    apply Forall_cons; [eexists; split; [in_table|]; cbn [snd]; on_pl MET; apply Forall_nil|]. (* P *)
    apply Forall_nil.
Qed.
Definition planes_S15hR : planes := [("P", [Zv 1 (-1) 0]); ("Z", [Zv 1 (-1) 0; Zv 0 0 1; Zv 1 0 0]); ("Q", [Zv 0 0 1]); ("F", [Zv 1 (-1) 0]); ("P1", [Zv 1 (-1) 0]); ("Q1", [Zv 1 (-1) 0; Zv 1 0 0]); ("L", [Zv 1 0 0])].
Lemma sym_S15hR r K a alpha pts : det r <> 0 -> 0 < a -> cos (alpha * TORADIANS) <> 1 -> 1 + 2 * cos (alpha * TORADIANS) <> 0 -> metric r K (terms_S15hR ((1 + cos (alpha * TORADIANS)) / (a * a * (1 - cos (alpha * TORADIANS)) * (1 + 2 * cos (alpha * TORADIANS)))) (- cos (alpha * TORADIANS) / (a * a * (1 - cos (alpha * TORADIANS)) * (1 + 2 * cos (alpha * TORADIANS))))) -> sc_table_15 alpha = Ok pts -> same_letters r pts /\ planes_ok r pts planes_S15hR.
Proof.
  intros DR Ha HS1 HS2 MET H. sym_start H sc_table_15. unfold terms_S15hR in *.
  destruct (half_tan (alpha * TORADIANS)) as (HT & HC); [assumption|]. rewrite HT in *. split.
  - apply like_first_all.
    apply Forall_cons; [lf_self|]. (* GAMMA *)
    apply Forall_cons; [lf_self|]. (* F *)
    apply Forall_cons; [lf_self|]. (* L *)
    apply Forall_cons; [lf_self|]. (* P *)
    apply Forall_cons; [lf_opposite (Zv 1 (-1) 0)|]. (* P1 *)
    apply Forall_cons; [lf_self|]. (* Q *)
    apply Forall_cons; [lf_opposite (Zv 1 0 0)|]. (* Q1 *)
    apply Forall_cons; [lf_self|]. (* Z *)
    apply Forall_nil.
  - unfold planes_ok, planes_S15hR.
    apply Forall_cons; [eexists; split; [in_table|]; cbn [snd]; on_pl MET; apply Forall_nil|]. (* P *)
    apply Forall_cons; [eexists; split; [in_table|]; cbn [snd]; on_pl MET; on_pl MET; on_pl MET; apply Forall_nil|]. (* Z *)
    apply Forall_cons; [eexists; split; [in_table|]; cbn [snd]; on_pl MET; apply Forall_nil|]. (* Q *)
    apply Forall_cons; [eexists; split; [in_table|]; cbn [snd]; on_pl MET; apply Forall_nil|]. (* F *)
    apply Forall_cons; [eexists; split; [in_table|]; cbn [snd]; on_pl MET; apply Forall_nil|]. (* P1 *)
    apply Forall_cons; [eexists; split; [in_table|]; cbn [snd]; on_pl MET; on_pl MET; apply Forall_nil|]. (* Q1 *)
    apply Forall_cons; [eexists; split; [in_table|]; cbn [snd]; on_pl MET; apply Forall_nil|]. (* L *)
    apply Forall_nil.
Qed.
Definition planes_S16mP : planes := [("Y", [Zv 0 0 1]); ("H", [Zv 0 0 1; Zv 0 1 1]); ("C", [Zv 0 1 1]); ("E", [Zv 0 1 1]); ("M1", [Zv 0 1 1; Zv 0 1 0]); ("A", [Zv 0 1 0]); ("X", [Zv 0 1 0]); ("H1", [Zv 0 1 0]); ("M", [Zv 0 0 1]); ("D", [Zv 0 0 1; Zv 1 0 0]); ("Z", [Zv 1 0 0])].
Lemma sym_S16mP r K a b c alpha pts : det r <> 0 -> 0 < a -> 0 < b -> 0 < c -> sin (alpha * TORADIANS) <> 0 -> metric r K (terms_S16mP (/ (a * a)) (/ (b * b * (sin (alpha * TORADIANS) * sin (alpha * TORADIANS)))) (/ (c * c * (sin (alpha * TORADIANS) * sin (alpha * TORADIANS)))) (- cos (alpha * TORADIANS) / (b * c * (sin (alpha * TORADIANS) * sin (alpha * TORADIANS))))) -> sc_table_16 b c alpha = Ok pts -> same_letters r pts /\ planes_ok r pts planes_S16mP.
Proof.
  intros DR Ha Hb Hc HS MET H. sym_start H sc_table_16. unfold terms_S16mP in *. pyth (alpha * TORADIANS) q s. split.
  - apply like_first_all.
    apply Forall_cons; [lf_self|]. (* GAMMA *)
    apply Forall_cons; [lf_self|]. (* A *)
    apply Forall_cons; [lf_self|]. (* C *)
    apply Forall_cons; [lf_self|]. (* D *)
    apply Forall_cons; [lf_same (Zv 0 0 (-1))|]. (* D1 *)
    apply Forall_cons; [lf_self|]. (* E *)
    apply Forall_cons; [lf_self|]. (* H *)
    apply Forall_cons; [lf_opposite (Zv 0 1 1)|]. (* H1 *)
    apply Forall_cons; [lf_same (Zv 0 0 (-1))|]. (* H2 *)
    apply Forall_cons; [lf_self|]. (* M *)
    apply Forall_cons; [lf_opposite (Zv 1 1 1)|]. (* M1 *)
    apply Forall_cons; [lf_same (Zv 0 0 (-1))|]. (* M2 *)
    apply Forall_cons; [lf_self|]. (* X *)
    apply Forall_cons; [lf_self|]. (* Y *)
    apply Forall_cons; [lf_same (Zv 0 0 (-1))|]. (* Y1 *)
    apply Forall_cons; [lf_self|]. (* Z *)
    apply Forall_nil.
  - unfold planes_ok, planes_S16mP.
    apply Forall_cons; [eexists; split; [in_table|]; cbn [snd]; on_pl MET; apply Forall_nil|]. (* Y *)
    apply Forall_cons; [eexists; split; [in_table|]; cbn [snd]; on_pl MET; on_pl MET; apply Forall_nil|]. (* H *)
    apply Forall_cons; [eexists; split; [in_table|]; cbn [snd]; on_pl MET; apply Forall_nil|]. (* C *)
    apply Forall_cons; [eexists; split; [in_table|]; cbn [snd]; on_pl MET; apply Forall_nil|]. (* E *)
    apply Forall_cons; [eexists; split; [in_table|]; cbn [snd]; on_pl MET; on_pl MET; apply Forall_nil|]. (* M1 *)
    apply Forall_cons; [eexists; split; [in_table|]; cbn [snd]; on_pl MET; apply Forall_nil|]. (* A *)
    apply Forall_cons; [eexists; split; [in_table|]; cbn [snd]; on_pl MET; apply Forall_nil|]. (* X *)
    apply Forall_cons; [eexists; split; [in_table|]; cbn [snd]; on_pl MET; apply Forall_nil|]. (* H1 *)
    apply Forall_cons; [eexists; split; [in_table|]; cbn [snd]; on_pl MET; apply Forall_nil|]. (* M *)
    apply Forall_cons; [eexists; split; [in_table|]; cbn [snd]; on_pl MET; on_pl MET; apply Forall_nil|]. (* D *)
    apply Forall_cons; [eexists; split; [in_table|]; cbn [snd]; on_pl MET; apply Forall_nil|]. (* Z *)
    apply Forall_nil.
Qed.
Definition planes_S17mC : planes := [("Y", [Zv 1 1 0]); ("F", [Zv 1 1 0; Zv 1 1 1]); ("L", [Zv 1 1 1]); ("I", [Zv 1 1 1]); ("I1", [Zv 0 0 1]); ("Z", [Zv 0 0 1]); ("F1", [Zv 0 0 1]); ("X1", [Zv 1 1 0])].
Lemma sym_S17mC r K a b c alpha pts : det r <> 0 -> 0 < a -> 0 < b -> 0 < c -> sin (alpha * TORADIANS) <> 0 -> metric r K (terms_S17mC (/ (a * a)) (/ (b * b * (sin (alpha * TORADIANS) * sin (alpha * TORADIANS)))) (/ (c * c * (sin (alpha * TORADIANS) * sin (alpha * TORADIANS)))) (- cos (alpha * TORADIANS) / (b * c * (sin (alpha * TORADIANS) * sin (alpha * TORADIANS))))) -> sc_table_17 a b c alpha = Ok pts -> same_letters r pts /\ planes_ok r pts planes_S17mC.
Proof.
  intros DR Ha Hb Hc HS MET H. sym_start H sc_table_17. unfold terms_S17mC in *. pyth (alpha * TORADIANS) q s. split.
  - apply like_first_all.
    apply Forall_cons; [lf_self|]. (* GAMMA *)
    apply Forall_cons; [lf_self|]. (* N *)
    apply Forall_cons; [lf_by DR MET (Zm 0 (-1) 0 (-1) 0 0 0 0 (-1)) (Zm 0 (-1) 0 (-1) 0 0 0 0 (-1)) (Zv 0 0 0)|]. (* N1 *)
    apply Forall_cons; [lf_self|]. (* F *)
    apply Forall_cons; [lf_opposite (Zv 1 1 1)|]. (* F1 *)
    apply Forall_cons; [lf_same (Zv (-1) (-1) 0)|]. (* F2 *)
    apply Forall_cons; [lf_same (Zv 0 (-1) 0)|]. (* F3 *)
    apply Forall_cons; [lf_self|]. (* I *)
    apply Forall_cons; [lf_opposite (Zv 1 0 1)|]. (* I1 *)
    apply Forall_cons; [lf_self|]. (* L *)
    apply Forall_cons; [lf_self|]. (* M *)
    apply Forall_cons; [lf_self|]. (* X *)
    apply Forall_cons; [lf_opposite (Zv 1 0 0)|]. (* X1 *)
    apply Forall_cons; [lf_opposite (Zv 0 (-1) 0)|]. (* X2 *)
    apply Forall_cons; [lf_self|]. (* Y *)
    apply Forall_cons; [lf_same (Zv (-1) (-1) 0)|]. (* Y1 *)
    apply Forall_cons; [lf_self|]. (* Z *)
    apply Forall_nil.
  - unfold planes_ok, planes_S17mC.
    apply Forall_cons; [eexists; split; [in_table|]; cbn [snd]; on_pl MET; apply Forall_nil|]. (* Y *)
    apply Forall_cons; [eexists; split; [in_table|]; cbn [snd]; on_pl MET; on_pl MET; apply Forall_nil|]. (* F *)
    apply Forall_cons; [eexists; split; [in_table|]; cbn [snd]; on_pl MET; apply Forall_nil|]. (* L *)
    apply Forall_cons; [eexists; split; [in_table|]; cbn [snd]; on_pl MET; apply Forall_nil|]. (* I *)
    apply Forall_cons; [eexists; split; [in_table|]; cbn [snd]; on_pl MET; apply Forall_nil|]. (* I1 *)
    apply Forall_cons; [eexists; split; [in_table|]; cbn [snd]; on_pl MET; apply Forall_nil|]. (* Z *)
    apply Forall_cons; [eexists; split; [in_table|]; cbn [snd]; on_pl MET; apply Forall_nil|]. (* F1 *)
    apply Forall_cons; [eexists; split; [in_table|]; cbn [snd]; on_pl MET; apply Forall_nil|]. (* X1 *)
    apply Forall_nil.
Qed.
Definition planes_S18mC : planes := [("Y", [Zv 0 1 0]); ("F", [Zv 0 1 0; Zv 0 1 1]); ("H", [Zv 0 1 1; Zv 0 0 1]); ("Z", [Zv 0 0 1]); ("I", [Zv 0 0 1]); ("F1", [Zv 0 0 1]); ("H1", [Zv 1 0 0]); ("Y1", [Zv 1 0 0; Zv 1 (-1) 0]); ("X", [Zv 1 (-1) 0])].
Lemma sym_S18mC r K a b c alpha pts : det r <> 0 -> 0 < a -> 0 < b -> 0 < c -> sin (alpha * TORADIANS) <> 0 -> metric r K (terms_S18mC (/ (a * a)) (/ (b * b * (sin (alpha * TORADIANS) * sin (alpha * TORADIANS)))) (/ (c * c * (sin (alpha * TORADIANS) * sin (alpha * TORADIANS)))) (- cos (alpha * TORADIANS) / (b * c * (sin (alpha * TORADIANS) * sin (alpha * TORADIANS))))) -> sc_table_18 a b c alpha = Ok pts -> same_letters r pts /\ planes_ok r pts planes_S18mC.
Proof.
  intros DR Ha Hb Hc HS MET H. sym_start H sc_table_18. unfold terms_S18mC in *. pyth (alpha * TORADIANS) q s. split.
  - apply like_first_all.
    apply Forall_cons; [lf_self|]. (* GAMMA *)
    apply Forall_cons; [lf_self|]. (* F *)
    apply Forall_cons; [lf_opposite (Zv 1 0 1)|]. (* F1 *)
    apply Forall_cons; [lf_same (Zv 0 (-1) 0)|]. (* F2 *)
    apply Forall_cons; [lf_self|]. (* H *)
    apply Forall_cons; [lf_opposite (Zv 1 0 1)|]. (* H1 *)
    apply Forall_cons; [lf_opposite (Zv 0 0 1)|]. (* H2 *)
    apply Forall_cons; [lf_self|]. (* I *)
    apply Forall_cons; [lf_self|]. (* M *)
    apply Forall_cons; [lf_self|]. (* N *)
    apply Forall_cons; [lf_by DR MET (Zm 0 (-1) 0 (-1) 0 0 0 0 (-1)) (Zm 0 (-1) 0 (-1) 0 0 0 0 (-1)) (Zv 0 0 0)|]. (* N1 *)
    apply Forall_cons; [lf_self|]. (* X *)
    apply Forall_cons; [lf_self|]. (* Y *)
    apply Forall_cons; [lf_opposite (Zv 1 0 0)|]. (* Y1 *)
    apply Forall_cons; [lf_opposite (Zv 0 0 0)|]. (* Y2 *)
    apply Forall_cons; [lf_same (Zv 0 (-1) 0)|]. (* Y3 *)
    apply Forall_cons; [lf_self|]. (* Z *)
    apply Forall_nil.
  - unfold planes_ok, planes_S18mC.
    apply Forall_cons; [eexists; split; [in_table|]; cbn [snd]; on_pl MET; apply Forall_nil|]. (* Y *)
    apply Forall_cons; [eexists; split; [in_table|]; cbn [snd]; on_pl MET; on_pl MET; apply Forall_nil|]. (* F *)
    apply Forall_cons; [eexists; split; [in_table|]; cbn [snd]; on_pl MET; on_pl MET; apply Forall_nil|]. (* H *)
    apply Forall_cons; [eexists; split; [in_table|]; cbn [snd]; on_pl MET; apply Forall_nil|]. (* Z *)
    apply Forall_cons; [eexists; split; [in_table|]; cbn [snd]; on_pl MET; apply Forall_nil|]. (* I *)
    apply Forall_cons; [eexists; split; [in_table|]; cbn [snd]; on_pl MET; apply Forall_nil|]. (* F1 *)
    apply Forall_cons; [eexists; split; [in_table|]; cbn [snd]; on_pl MET; apply Forall_nil|]. (* H1 *)
    apply Forall_cons; [eexists; split; [in_table|]; cbn [snd]; on_pl MET; on_pl MET; apply Forall_nil|]. (* Y1 *)
    apply Forall_cons; [eexists; split; [in_table|]; cbn [snd]; on_pl MET; apply Forall_nil|]. (* X *)
    apply Forall_nil.
Qed.
Definition planes_S19mC : planes := [("Y", [Zv 0 1 0]); ("F", [Zv 0 1 0; Zv 1 1 1]); ("L", [Zv 1 1 1]); ("I", [Zv 1 1 1]); ("I1", [Zv 0 0 1]); ("Z", [Zv 0 0 1]); ("H", [Zv 0 0 1; Zv 0 1 1]); ("F1", [Zv 0 1 1]); ("H1", [Zv 1 0 0]); ("Y1", [Zv 1 0 0; Zv 1 (-1) 0]); ("X", [Zv 1 (-1) 0])].
Lemma sym_S19mC r K a b c alpha pts : det r <> 0 -> 0 < a -> 0 < b -> 0 < c -> sin (alpha * TORADIANS) <> 0 -> metric r K (terms_S19mC (/ (a * a)) (/ (b * b * (sin (alpha * TORADIANS) * sin (alpha * TORADIANS)))) (/ (c * c * (sin (alpha * TORADIANS) * sin (alpha * TORADIANS)))) (- cos (alpha * TORADIANS) / (b * c * (sin (alpha * TORADIANS) * sin (alpha * TORADIANS))))) -> sc_table_19 a b c alpha = Ok pts -> same_letters r pts /\ planes_ok r pts planes_S19mC.
Proof.
  intros DR Ha Hb Hc HS MET H. sym_start H sc_table_19. unfold terms_S19mC in *. pyth (alpha * TORADIANS) q s. split.
  - apply like_first_all.
    apply Forall_cons; [lf_self|]. (* GAMMA *)
    apply Forall_cons; [lf_self|]. (* F *)
    apply Forall_cons; [lf_opposite (Zv 1 1 1)|]. (* F1 *)
    apply Forall_cons; [lf_same (Zv 0 (-1) 0)|]. (* F2 *)
    apply Forall_cons; [lf_self|]. (* H *)
    apply Forall_cons; [lf_opposite (Zv 1 0 1)|]. (* H1 *)
    apply Forall_cons; [lf_opposite (Zv 0 0 1)|]. (* H2 *)
    apply Forall_cons; [lf_self|]. (* I *)
    apply Forall_cons; [lf_opposite (Zv 1 0 1)|]. (* I1 *)
    apply Forall_cons; [lf_self|]. (* L *)
    apply Forall_cons; [lf_self|]. (* M *)
    apply Forall_cons; [lf_self|]. (* N *)
    apply Forall_cons; [lf_by DR MET (Zm 0 (-1) 0 (-1) 0 0 0 0 (-1)) (Zm 0 (-1) 0 (-1) 0 0 0 0 (-1)) (Zv 0 0 0)|]. (* N1 *)
    apply Forall_cons; [lf_self|]. (* X *)
    apply Forall_cons; [lf_self|]. (* Y *)
    apply Forall_cons; [lf_opposite (Zv 1 0 0)|]. (* Y1 *)
    apply Forall_cons; [lf_opposite (Zv 0 0 0)|]. (* Y2 *)
    apply Forall_cons; [lf_same (Zv 0 (-1) 0)|]. (* Y3 *)
    apply Forall_cons; [lf_self|]. (* Z *)
    apply Forall_nil.
  - unfold planes_ok, planes_S19mC.
    apply Forall_cons; [eexists; split; [in_table|]; cbn [snd]; on_pl MET; apply Forall_nil|]. (* Y *)
    apply Forall_cons; [eexists; split; [in_table|]; cbn [snd]; on_pl MET; on_pl MET; apply Forall_nil|]. (* F *)
    apply Forall_cons; [eexists; split; [in_table|]; cbn [snd]; on_pl MET; apply Forall_nil|]. (* L *)
    apply Forall_cons; [eexists; split; [in_table|]; cbn [snd]; on_pl MET; apply Forall_nil|]. (* I *)
    apply Forall_cons; [eexists; split; [in_table|]; cbn [snd]; on_pl MET; apply Forall_nil|]. (* I1 *)
    apply Forall_cons; [eexists; split; [in_table|]; cbn [snd]; on_pl MET; apply Forall_nil|]. (* Z *)
    apply Forall_cons; [eexists; split; [in_table|]; cbn [snd]; on_pl MET; on_pl MET; apply Forall_nil|]. (* H *)
    apply Forall_cons; [eexists; split; [in_table|]; cbn [snd]; on_pl MET; apply Forall_nil|]. (* F1 *)
    apply Forall_cons; [eexists; split; [in_table|]; cbn [snd]; on_pl MET; apply Forall_nil|]. (* H1 *)
    apply Forall_cons; [eexists; split; [in_table|]; cbn [snd]; on_pl MET; on_pl MET; apply Forall_nil|]. (* Y1 *)
    apply Forall_cons; [eexists; split; [in_table|]; cbn [snd]; on_pl MET; apply Forall_nil|]. (* X *)
    apply Forall_nil.
Qed.
Definition planes_S20aP : planes := [].
Lemma sym_S20aP r pts : det r <> 0 -> sc_table_20 = Ok pts -> same_letters r pts /\ planes_ok r pts planes_S20aP.
Proof.
  intros DR H. sym_start H sc_table_20. split.
  - apply like_first_all.
    apply Forall_cons; [lf_self|]. (* GAMMA *)
    apply Forall_cons; [lf_self|]. (* L *)
    apply Forall_cons; [lf_self|]. (* M *)
    apply Forall_cons; [lf_self|]. (* N *)
    apply Forall_cons; [lf_self|]. (* R *)
    apply Forall_cons; [lf_self|]. (* X *)
    apply Forall_cons; [lf_self|]. (* Y *)
    apply Forall_cons; [lf_self|]. (* Z *)
    apply Forall_nil.
  - unfold planes_ok, planes_S20aP.
    apply Forall_nil.
Qed.
Definition planes_S21aP : planes := [].
Lemma sym_S21aP r pts : det r <> 0 -> sc_table_21 = Ok pts -> same_letters r pts /\ planes_ok r pts planes_S21aP.
Proof.
  intros DR H. sym_start H sc_table_21. split.
  - apply like_first_all.
    apply Forall_cons; [lf_self|]. (* GAMMA *)
    apply Forall_cons; [lf_self|]. (* L *)
    apply Forall_cons; [lf_self|]. (* M *)
    apply Forall_cons; [lf_self|]. (* N *)
    apply Forall_cons; [lf_self|]. (* R *)
    apply Forall_cons; [lf_self|]. (* X *)
    apply Forall_cons; [lf_self|]. (* Y *)
    apply Forall_cons; [lf_self|]. (* Z *)
    apply Forall_nil.
  - unfold planes_ok, planes_S21aP.
    apply Forall_nil.
Qed.
