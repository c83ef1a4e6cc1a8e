(* F_NiggliCerts.v : refutations for the uniqueness of the reduced cell, checked by F_NiggliCheck.v.
   Found by a search outside Coq; nothing is trusted about how. *)
From Verif Require Import Base F_NiggliCheck.
Local Notation "( i , k )" := (@pair nat Z i%nat k%Z) (only parsing).

Definition rows_01 : list (option tree) :=
  [None;
   None;
   Some (Lf [(0,1);(1,2);(2,1);(3,1);(4,1);(8,1);(11,1)]);
   None;
   None;
   Some (Lf [(0,1);(1,1);(2,1);(4,1);(11,1)]);
   Some (Lf [(0,1);(1,2);(2,1);(3,1);(5,1);(7,1);(11,1)]);
   Some (Lf [(0,1);(1,1);(5,1);(11,1)]);
   Some (Lf [(0,1);(1,1);(2,1);(4,1);(5,1);(6,1);(11,1)]);
   None;
   None;
   Some (Lf [(0,1);(1,2);(2,1);(3,1);(11,1)]);
   None;
   Some (Lf [(0,1);(10,1)]);
   None;
   Some (Lf [(0,1);(1,2);(2,1);(3,1);(11,1)]);
   None;
   None;
   Some (Lf [(0,1);(1,1);(2,1);(4,1);(5,1);(6,1);(11,1)]);
   Some (Lf [(0,1);(1,1);(5,1);(11,1)]);
   Some (Lf [(0,1);(1,2);(2,1);(3,1);(5,1);(7,1);(11,1)]);
   Some (Lf [(0,1);(1,1);(2,1);(4,1);(11,1)]);
   None;
   None;
   Some (Lf [(0,1);(1,2);(2,1);(3,1);(4,1);(8,1);(11,1)]);
   None;
   None].
Definition rows_02 : list (option tree) :=
  [None;
   None;
   Some (Lf [(0,1);(1,1);(2,1);(3,1);(4,1);(8,1);(11,1)]);
   None;
   None;
   Some (Lf [(0,1);(2,1);(4,1);(11,1)]);
   Some (Lf [(0,1);(1,1);(2,1);(3,1);(5,1);(7,1);(11,1)]);
   Some (Lf [(0,1);(5,1);(11,1)]);
   Some (Lf [(0,1);(2,1);(4,1);(5,1);(6,1);(11,1)]);
   None;
   None;
   Some (Lf [(0,1);(1,1);(2,1);(3,1);(11,1)]);
   None;
   Some (Lf [(0,1);(1,1);(10,1)]);
   None;
   Some (Lf [(0,1);(1,1);(2,1);(3,1);(11,1)]);
   None;
   None;
   Some (Lf [(0,1);(2,1);(4,1);(5,1);(6,1);(11,1)]);
   Some (Lf [(0,1);(5,1);(11,1)]);
   Some (Lf [(0,1);(1,1);(2,1);(3,1);(5,1);(7,1);(11,1)]);
   Some (Lf [(0,1);(2,1);(4,1);(11,1)]);
   None;
   None;
   Some (Lf [(0,1);(1,1);(2,1);(3,1);(4,1);(8,1);(11,1)]);
   None;
   None].
Definition rows_03 : list (option tree) :=
  [None;
   None;
   Some (Lf [(0,1);(1,1);(3,1);(4,1);(8,1);(11,1)]);
   None;
   None;
   Some (Lf [(0,1);(4,1);(11,1)]);
   Some (Lf [(0,1);(1,1);(3,1);(5,1);(7,1);(11,1)]);
   None;
   Some (Lf [(0,1);(4,1);(5,1);(6,1);(11,1)]);
   None;
   None;
   Some (Lf [(0,1);(1,1);(3,1);(11,1)]);
   None;
   Some (Lf [(0,1);(1,1);(2,1);(10,1)]);
   None;
   Some (Lf [(0,1);(1,1);(3,1);(11,1)]);
   None;
   None;
   Some (Lf [(0,1);(4,1);(5,1);(6,1);(11,1)]);
   None;
   Some (Lf [(0,1);(1,1);(3,1);(5,1);(7,1);(11,1)]);
   Some (Lf [(0,1);(4,1);(11,1)]);
   None;
   None;
   Some (Lf [(0,1);(1,1);(3,1);(4,1);(8,1);(11,1)]);
   None;
   None].
Definition certs_00_0 : list cert :=
  [Never (Lf [(0,1);(1,1);(2,2);(7,1);(9,1);(14,1)]);
   Never (Lf [(0,1);(8,1);(13,1)]);
   Never (Lf [(0,1);(1,1);(8,1);(9,1);(15,1)]);
   Never (Lf [(0,1);(1,1);(8,1);(9,1);(15,1)]);
   Never (Lf [(0,1);(1,2);(2,2);(6,1);(9,1);(14,1)]);
   Never (Lf [(0,1);(1,2);(2,2);(7,1);(13,1)]);
   Never (Lf [(0,1);(1,1);(2,2);(7,1);(9,1);(15,1)]);
   Never (Lf [(0,1);(1,1);(2,2);(7,1);(9,1);(15,1)]);
   Never (Lf [(0,1);(1,1);(2,2);(7,1);(9,1);(15,1)]);
   Never (Lf [(0,1);(7,1);(13,1)]);
   Never (Lf [(0,2);(5,1);(13,1)]);
   Never (Lf [(0,1);(1,1);(2,2);(7,1);(9,1);(14,1);(15,1)]);
   Never (Lf [(0,1);(7,1);(13,1);(15,1)]);
   Never (Nd 3 (Lf [(8,1);(15,1);(26,1)]) (Lf [(0,1);(7,1);(15,1);(27,1)]));
   Never (Lf [(0,1);(1,1);(8,1);(9,1);(14,1)]);
   Never (Lf [(0,1);(1,1);(6,1);(13,1)]);
   Never (Lf [(0,1);(1,2);(2,2);(6,1);(9,1);(15,1)]);
   Never (Lf [(0,1);(1,1);(4,1);(5,1);(6,1);(13,1)]);
   Never (Lf [(0,1);(1,2);(2,2);(6,1);(9,1);(15,1)]);
   Never (Lf [(0,1);(1,2);(8,1);(13,1)]);
   Never (Lf [(0,1);(1,1);(8,1);(9,1);(14,1);(15,1)]);
   Never (Lf [(0,1);(1,1);(8,1);(9,1);(14,1);(15,2)]);
   Never (Lf [(0,1);(1,2);(8,1);(13,1);(15,1)]);
   Never (Nd 0 (Lf [(4,1);(9,1);(15,1);(26,1)]) (Lf [(0,1);(1,3);(8,1);(9,1);(15,2);(27,1)]));
   Never (Lf [(0,1);(1,1);(2,2);(6,1);(13,1)]);
   Never (Lf [(0,1);(1,2);(2,2);(6,1);(9,1);(14,1);(15,1)]);
   Never (Lf [(0,1);(1,1);(2,2);(6,1);(13,1);(15,1)]);
   Never (Nd 1 (Lf [(1,1);(5,1);(9,1);(15,1);(26,2)]) (Lf [(0,1);(1,2);(2,4);(6,1);(9,1);(15,2);(27,1)]));
   Never (Lf [(0,1);(1,1);(2,2);(7,1);(9,1);(14,1)]);
   Never (Lf [(0,1);(8,1);(13,1);(14,1)]);
   Equal [Lf [(26,1)];Lf [(26,1)];Lf [(1,1);(9,1);(26,1)];Lf [(11,1);(19,1);(26,1)];Lf [(1,1);(2,2);(9,1);(26,1)];Lf [(11,1);(12,2);(19,1);(26,1)]];
   Never (Lf [(0,1);(1,1);(2,2);(6,1);(13,1)]);
   Never (Lf [(0,1);(1,2);(2,2);(6,1);(9,1);(14,1)]);
   Never (Lf [(0,1);(1,2);(2,2);(7,1);(13,1);(14,1)]);
   Never (Lf [(0,1);(1,1);(5,1);(16,1)]);
   Equal [Nd 0 (Lf [(12,1);(27,1)]) (Nd 1 (Lf [(9,1);(11,1);(29,1)]) (Lf [(26,1);(28,1);(30,1)]));Nd 6 (Lf [(2,1);(9,1);(27,1)]) (Lf [(1,1);(2,1);(11,1);(26,1);(28,1)]);Nd 0 (Lf [(12,1);(27,1)]) (Nd 1 (Lf [(9,1);(11,1);(29,1)]) (Nd 6 (Lf [(2,1);(9,1);(31,1)]) (Lf [(26,1);(30,1);(32,1)])));Nd 0 (Lf [(12,1);(27,1)]) (Lf [(1,1);(2,1);(11,1);(26,1);(28,1)]);Nd 0 (Lf [(12,1);(27,1)]) (Nd 6 (Lf [(2,1);(9,1);(29,1)]) (Lf [(1,2);(26,1);(28,1);(30,1)]));Nd 1 (Lf [(9,1);(11,1);(27,1)]) (Lf [(2,1);(11,1);(12,1);(26,1);(28,1)])];
   Never (Lf [(0,1);(1,2);(8,1);(13,1)]);
   Never (Lf [(0,1);(1,1);(2,2);(7,1);(9,1);(14,1)]);
   Never (Lf [(0,1);(1,1);(4,1);(5,1);(6,1);(13,1)]);
   Never (Nd 1 (Lf [(1,1);(5,1);(9,1);(14,1);(26,2)]) (Lf [(0,1);(1,2);(2,4);(6,1);(9,1);(14,2);(27,1)]));
   Never (Lf [(0,1);(1,1);(6,1);(13,1)]);
   Never (Nd 0 (Lf [(9,1);(13,1);(26,1)]) (Lf [(0,1);(1,2);(9,1);(12,1);(17,2);(18,1);(27,1)]));
   Never (Lf [(0,1);(1,1);(8,1);(9,1);(14,1)]);
   Never (Lf [(0,1);(1,1);(6,1);(13,1);(14,1)]);
   Equal [Nd 0 (Lf [(2,1);(9,1);(11,1);(27,1)]) (Lf [(26,1);(28,1)]);Nd 0 (Lf [(2,1);(9,1);(11,1);(27,1)]) (Nd 1 (Lf [(1,1);(9,1);(11,1);(29,1)]) (Nd 7 (Lf [(9,1);(11,1);(31,1)]) (Lf [(1,2);(2,2);(26,1);(30,1);(32,1)])));Nd 1 (Lf [(1,1);(9,1);(11,1);(27,1)]) (Lf [(1,1);(2,2);(9,1);(26,1);(28,1)]);Nd 0 (Lf [(2,1);(9,1);(11,1);(27,1)]) (Nd 7 (Lf [(9,1);(11,1);(29,1)]) (Lf [(1,2);(2,1);(11,1);(26,1);(28,1);(30,1)]));Nd 7 (Lf [(9,1);(11,1);(27,1)]) (Lf [(1,1);(2,2);(9,1);(26,1);(28,1)]);Nd 0 (Lf [(2,1);(9,1);(11,1);(27,1)]) (Nd 1 (Lf [(1,1);(9,1);(11,1);(29,1)]) (Lf [(1,2);(2,1);(11,1);(26,1);(28,1);(30,1)]))];
   Never (Lf [(0,2);(5,1);(13,1)]);
   Never (Lf [(0,1);(7,1);(13,1)]);
   Never (Lf [(0,1);(1,1);(8,1);(9,1);(14,1)]);
   Never (Nd 3 (Lf [(1,1);(2,1);(12,1);(26,1)]) (Lf [(0,1);(7,1);(14,1);(27,1)]));
   Never (Lf [(0,1);(7,1);(11,1);(16,1);(18,1)]);
   Never (Lf [(0,1);(1,2);(2,2);(7,1);(13,1)]);
   Never (Nd 1 (Lf [(1,2);(5,1);(9,1);(12,1);(17,2);(26,2)]) (Lf [(0,1);(1,3);(2,3);(9,1);(12,2);(17,3);(27,1)]));
   Never (Lf [(0,1);(1,2);(2,2);(6,1);(9,1);(14,1)]);
   Never (Nd 0 (Lf [(4,1);(9,1);(14,1);(26,1)]) (Lf [(0,1);(1,3);(8,1);(9,1);(14,2);(27,1)]));
   Never (Lf [(0,1);(8,1);(13,1)]);
   Never (Nd 3 (Lf [(2,1);(17,1);(26,1)]) (Lf [(0,1);(12,1);(17,1);(27,1)]));
   Never (Lf [(0,1);(1,2);(2,1);(4,1);(9,1);(11,1);(13,1)]);
   Never (Lf [(0,1);(1,2);(8,1);(14,1)]);
   Never (Lf [(0,1);(1,1);(8,1);(9,1);(15,1)]);
   Never (Lf [(0,1);(1,1);(8,1);(9,1);(15,1)]);
   Never (Lf [(0,1);(1,1);(2,2);(7,1);(9,1);(13,1)]);
   Never (Lf [(0,1);(1,1);(2,1);(3,1);(9,1);(12,1);(14,1)]);
   Never (Lf [(0,1);(1,2);(2,2);(7,1);(13,1)]);
   Never (Nd 3 (Lf [(1,1);(2,1);(12,1);(26,1)]) (Lf [(0,1);(1,1);(11,1);(12,1);(27,1)]))].
Definition certs_00_1 : list cert :=
  [Never (Lf [(0,1);(1,1);(8,1);(9,1);(14,1)]);
   Never (Lf [(0,1);(3,1);(9,1);(11,1);(13,1)]);
   Never (Lf [(0,1);(8,1);(15,1)]);
   Never (Lf [(0,1);(8,1);(15,1)]);
   Never (Lf [(0,1);(1,1);(6,1);(13,1)]);
   Never (Lf [(0,1);(1,1);(4,1);(12,1);(14,1)]);
   Never (Lf [(0,1);(1,1);(4,1);(11,1);(12,1);(13,1)]);
   Never (Nd 0 (Lf [(6,1);(12,1);(15,1);(26,1)]) (Lf [(0,1);(1,3);(11,1);(12,3);(15,1);(16,1);(27,1)]));
   Never (Lf [(0,1);(1,2);(8,1);(15,1)]);
   Never (Lf [(0,1);(1,2);(8,1);(15,1)]);
   Never (Lf [(0,1);(3,1);(11,1);(13,1)]);
   Never (Lf [(0,1);(1,2);(8,1);(15,1)]);
   Never (Lf [(0,1);(1,1);(2,1);(4,1);(9,1);(11,1);(13,1)]);
   Never (Lf [(0,1);(1,2);(8,1);(14,1)]);
   Never (Nd 0 (Lf [(2,1);(12,1);(26,1)]) (Nd 7 (Lf [(1,1);(2,1);(28,1)]) (Lf [(0,1);(8,1);(13,2);(27,1);(29,1)])));
   Never (Nd 3 (Lf [(1,1);(2,1);(16,1);(26,1)]) (Lf [(0,1);(1,1);(7,1);(11,1);(16,1);(27,1)]));
   Never (Lf [(0,1);(8,1);(14,1);(15,1)]);
   Never (Lf [(0,1);(8,1);(14,1)]);
   Never (Nd 7 (Lf [(2,1);(26,1)]) (Lf [(0,1);(1,2);(3,1);(4,1);(8,1);(27,1)]));
   Never (Lf [(0,1);(1,1);(2,1);(4,1);(9,1);(11,1);(13,1)]);
   Never (Lf [(0,1);(1,1);(8,1);(9,1);(14,1)]);
   Never (Lf [(0,1);(3,1);(11,1);(13,1)]);
   Never (Nd 0 (Lf [(9,1);(14,1);(26,1)]) (Lf [(0,1);(1,1);(9,1);(11,1);(16,2);(27,1)]));
   Equal [Lf [(13,2);(26,1)];Lf [(3,2);(26,1)];Lf [(3,1);(26,1)];Lf [(13,1);(26,1)];Lf [(1,2);(8,2);(26,1)];Lf [(11,2);(18,2);(26,1)]];
   Never (Lf [(0,1);(1,1);(4,1);(6,1);(12,2);(14,1)]);
   Never (Lf [(0,1);(1,1);(4,1);(11,1);(12,1);(13,1)]);
   Never (Nd 0 (Lf [(2,1);(19,1);(26,1)]) (Lf [(0,1);(1,1);(9,1);(11,1);(12,3);(16,1);(27,1)]));
   Never (Lf [(0,1);(1,1);(6,1);(13,1)]);
   Equal [Lf [(4,2);(14,1);(26,1)];Lf [(3,2);(14,1);(26,1)];Lf [(3,1);(14,2);(26,1)];Lf [(3,1);(4,2);(26,1)];Lf [(8,2);(26,1)];Lf [(1,2);(11,2);(26,1)]];
   Never (Nd 0 (Lf [(4,1);(11,1);(16,1);(26,1)]) (Lf [(0,1);(1,2);(11,1);(16,1);(19,1);(27,1)]));
   Never (Lf [(0,1);(3,1);(9,1);(11,1);(13,1)]);
   Never (Nd 3 (Lf [(8,1);(13,1);(26,1)]) (Lf [(0,1);(1,1);(11,1);(27,1)]));
   Never (Lf [(0,1);(2,1);(3,1);(9,1);(12,1);(14,1)]);
   Never (Lf [(0,1);(1,2);(2,2);(7,1);(13,1)]);
   Never (Nd 3 (Lf [(2,1);(12,1);(26,1)]) (Lf [(0,1);(11,1);(12,1);(27,1)]));
   Never (Lf [(0,1);(1,1);(2,2);(7,1);(9,1);(13,1)]);
   Never (Nd 3 (Lf [(1,1);(2,1);(19,1);(26,1)]) (Lf [(0,1);(1,1);(11,1);(12,1);(19,1);(27,1)]));
   Never (Lf [(0,1);(8,1);(14,1)]);
   Never (Nd 0 (Lf [(4,1);(9,1);(13,1);(26,1)]) (Lf [(0,1);(1,3);(8,1);(9,1);(13,2);(27,1)]));
   Never (Lf [(0,1);(1,2);(2,1);(4,1);(9,1);(11,1);(13,1)]);
   Never (Lf [(0,1);(1,1);(8,1);(9,1);(13,1)]);
   Never (Lf [(0,1);(7,1);(14,1)]);
   Never (Lf [(0,1);(3,1);(5,1);(7,1);(14,1)]);
   Never (Lf [(0,1);(1,1);(2,2);(7,1);(9,1);(15,1)]);
   Never (Lf [(0,1);(1,1);(2,2);(7,1);(9,1);(15,1)]);
   Never (Lf [(0,1);(8,1);(13,1)]);
   Never (Lf [(0,1);(3,1);(11,1);(12,1);(13,1)]);
   Never (Lf [(0,1);(3,1);(12,1);(14,1)]);
   Never (Nd 3 (Lf [(1,1);(2,1);(11,1);(12,1);(19,1);(26,1)]) (Lf [(0,1);(1,1);(12,1);(19,1);(27,1)]));
   Never (Lf [(0,2);(5,1);(13,1)]);
   Never (Lf [(0,1);(7,1);(15,1)]);
   Never (Lf [(0,1);(1,1);(2,1);(5,1);(11,1);(13,1)]);
   Never (Lf [(0,1);(7,1);(15,1)]);
   Never (Lf [(0,1);(7,1);(15,1)]);
   Never (Lf [(0,1);(1,2);(2,2);(6,2);(12,1);(13,1)]);
   Never (Lf [(0,1);(1,1);(2,1);(5,1);(9,1);(12,1);(14,1)]);
   Never (Lf [(0,2);(1,2);(5,1);(9,1);(11,1);(13,2)]);
   Never (Nd 1 (Lf [(1,1);(9,1);(15,1);(26,2)]) (Lf [(0,1);(9,1);(11,2);(12,3);(27,1)]));
   Never (Lf [(0,1);(1,1);(2,1);(3,1);(9,1);(11,1);(13,1)]);
   Never (Lf [(0,1);(7,1);(14,1)]);
   Never (Lf [(0,1);(3,1);(5,1);(7,1);(14,1)]);
   Never (Nd 0 (Lf [(2,1);(17,1);(26,1)]) (Nd 1 (Lf [(7,1);(11,1);(28,1)]) (Nd 3 (Lf [(2,1);(11,1);(30,1)]) (Lf [(0,1);(2,1);(11,1);(29,1);(31,1)]))));
   Never (Nd 1 (Lf [(5,1);(9,1);(11,1);(16,1);(26,1)]) (Lf [(0,1);(2,2);(9,1);(11,2);(16,1);(27,1)]));
   Never (Lf [(0,1);(1,1);(2,2);(7,1);(9,1);(14,1)])].
Definition certs_00_2 : list cert :=
  [Never (Lf [(0,1);(1,2);(2,2);(7,1);(15,1)]);
   Never (Lf [(0,1);(1,1);(2,2);(5,1);(9,1);(11,1);(13,1)]);
   Never (Lf [(0,1);(1,2);(2,2);(7,1);(15,1)]);
   Never (Lf [(0,1);(1,2);(2,2);(7,1);(15,1)]);
   Never (Lf [(0,1);(3,1);(5,1);(7,1);(14,1)]);
   Never (Nd 1 (Lf [(12,1);(26,1)]) (Lf [(0,1);(3,1);(11,1);(14,1);(27,1)]));
   Never (Lf [(0,1);(1,1);(2,2);(5,1);(9,1);(11,1);(13,1)]);
   Never (Nd 3 (Lf [(11,1);(26,1)]) (Lf [(0,1);(19,1);(27,1)]));
   Never (Nd 1 (Lf [(1,1);(5,1);(9,1);(13,1);(26,2)]) (Lf [(0,1);(1,1);(2,2);(9,1);(11,1);(13,1);(27,1)]));
   Never (Lf [(0,1);(1,2);(2,2);(7,1);(14,1);(15,1)]);
   Never (Lf [(0,1);(1,2);(2,2);(7,1);(14,1)]);
   Never (Lf [(0,1);(1,1);(5,1);(16,1)]);
   Never (Nd 1 (Lf [(7,1);(11,1);(26,1)]) (Lf [(0,1);(2,1);(3,1);(11,1);(15,1);(27,1)]));
   Never (Lf [(0,1);(1,1);(2,1);(3,1);(9,1);(11,1);(13,1)]);
   Never (Lf [(0,1);(1,2);(2,2);(5,1);(9,1);(12,1);(14,1)]);
   Never (Lf [(0,2);(1,2);(5,1);(9,1);(11,1);(13,2)]);
   Never (Nd 1 (Lf [(1,2);(5,1);(9,1);(11,1);(12,2);(26,2)]) (Lf [(0,1);(1,3);(2,3);(9,1);(11,2);(12,3);(27,1)]));
   Never (Lf [(0,1);(1,2);(2,2);(6,2);(12,1);(13,1)]);
   Never (Lf [(0,1);(1,1);(2,2);(7,1);(9,1);(14,1)]);
   Never (Nd 3 (Lf [(1,1);(2,1);(11,1);(26,1)]) (Lf [(0,1);(16,1);(27,1)]));
   Never (Lf [(0,1);(1,1);(2,1);(5,1);(11,1);(13,1)]);
   Never (Nd 1 (Lf [(1,1);(7,1);(11,1);(26,1)]) (Lf [(0,1);(1,1);(2,1);(11,1);(13,1);(27,1)]));
   Never (Lf [(0,2);(5,1);(13,1)]);
   Never (Lf [(0,1);(1,1);(2,2);(7,1);(9,1);(14,1)]);
   Never (Nd 3 (Lf [(2,1);(11,1);(12,1);(26,1)]) (Lf [(0,1);(12,1);(27,1)]));
   Never (Lf [(0,1);(3,1);(11,1);(12,1);(13,1)]);
   Never (Lf [(0,1);(8,1);(13,1)]);
   Never (Nd 1 (Lf [(1,1);(5,1);(11,1);(16,1);(26,1)]) (Lf [(0,1);(1,2);(2,3);(11,2);(14,1);(16,1);(27,1)]));
   Never (Lf [(0,1);(1,2);(2,2);(7,1);(14,1)]);
   Never (Lf [(0,1);(7,1);(17,1);(18,1)]);
   Never (Nd 3 (Lf [(1,1);(2,1);(11,1);(12,1);(26,1)]) (Lf [(0,1);(7,1);(13,1);(27,1)]));
   Never (Lf [(0,1);(1,1);(8,1);(9,1);(13,1)]);
   Never (Lf [(0,1);(1,1);(8,1);(9,1);(13,1)]);
   Never (Lf [(0,1);(1,1);(8,1);(9,1);(13,1);(15,1)]);
   Never (Lf [(0,1);(8,1);(14,1);(15,1)]);
   Never (Lf [(0,1);(1,1);(8,1);(9,1);(13,1);(15,2)]);
   Never (Nd 3 (Lf [(8,1);(15,1);(26,1)]) (Lf [(0,1);(7,1);(15,1);(27,1)]));
   Never (Lf [(0,1);(8,1);(15,1)]);
   Never (Lf [(0,2);(4,1);(14,1);(15,1)]);
   Never (Lf [(0,1);(8,1);(15,1)]);
   Never (Lf [(0,1);(8,1);(15,1)]);
   Never (Lf [(0,1);(1,1);(2,2);(7,1);(9,1);(13,1)]);
   Never (Lf [(0,1);(8,1);(14,1)]);
   Never (Lf [(0,1);(7,1);(15,1)]);
   Never (Lf [(0,1);(7,1);(15,1)]);
   Never (Lf [(0,1);(7,1);(15,1)]);
   Never (Lf [(0,1);(8,1);(14,1)]);
   Never (Lf [(0,1);(1,1);(6,1);(13,1)]);
   Equal [Lf [(2,2);(6,2);(26,1)];Lf [(12,2);(16,2);(26,1)];Lf [(14,2);(26,1)];Lf [(4,2);(26,1)];Lf [(4,1);(26,1)];Lf [(14,1);(26,1)]];
   Never (Lf [(0,1);(1,1);(4,1);(5,1);(6,1);(13,1)]);
   Never (Nd 1 (Lf [(5,1);(9,1);(12,1);(19,2);(26,2)]) (Lf [(0,1);(9,1);(12,1);(17,3);(27,1)]));
   Equal [Lf [(13,2);(26,1)];Lf [(3,2);(26,1)];Lf [(14,2);(26,1)];Lf [(4,2);(26,1)];Lf [(26,1)];Lf [(26,1)]];
   Equal [Lf [(6,2);(26,1)];Lf [(16,2);(26,1)];Lf [(5,1);(14,2);(26,1)];Lf [(4,2);(5,1);(26,1)];Lf [(26,1)];Lf [(26,1)]];
   Equal [Lf [(5,1);(13,2);(26,1)];Lf [(3,2);(5,1);(26,1)];Lf [(7,2);(26,1)];Lf [(17,2);(26,1)];Lf [(26,1)];Lf [(26,1)]];
   Equal [Nd 5 (Lf [(19,1);(27,1)]) (Lf [(9,2);(26,1);(28,1)]);Nd 11 (Lf [(9,1);(27,1)]) (Lf [(19,2);(26,1);(28,1)]);Nd 11 (Lf [(9,1);(27,1)]) (Lf [(26,1);(28,1)]);Nd 5 (Lf [(19,1);(27,1)]) (Lf [(26,1);(28,1)]);Lf [(26,1)];Lf [(26,1)]];
   Never (Lf [(0,1);(1,1);(2,2);(7,1);(9,1);(13,1);(14,1)]);
   Never (Lf [(0,1);(8,1);(14,1)]);
   Never (Lf [(0,1);(1,1);(2,2);(6,1);(13,1)]);
   Equal [Lf [(26,1)];Lf [(26,1)];Nd 1 (Lf [(12,1);(27,1)]) (Lf [(26,1);(28,1)]);Nd 7 (Lf [(2,1);(27,1)]) (Lf [(26,1);(28,1)]);Nd 7 (Lf [(2,1);(27,1)]) (Lf [(26,1);(28,1)]);Nd 1 (Lf [(12,1);(27,1)]) (Lf [(26,1);(28,1)])];
   Never (Lf [(0,1);(5,1);(17,1)]);
   Never (Lf [(0,2);(5,1);(14,1)]);
   Equal [Lf [(26,1)];Lf [(26,1)];Lf [(14,1);(15,1);(26,1)];Lf [(4,1);(5,1);(26,1)];Lf [(14,1);(15,1);(26,1)];Lf [(4,1);(5,1);(26,1)]];
   Never (Lf [(0,1);(1,1);(2,2);(6,1);(13,1)]);
   Never (Nd 7 (Lf [(2,1);(17,1);(26,1)]) (Lf [(0,1);(4,1);(8,1);(27,1)]))].
Definition certs_00_3 : list cert :=
  [Never (Lf [(0,1);(1,1);(2,2);(6,1);(13,1);(15,1)]);
   Never (Lf [(0,1);(7,1);(14,1);(15,1)]);
   Never (Lf [(0,1);(7,1);(14,1)]);
   Equal [Lf [(6,2);(26,1)];Lf [(16,2);(26,1)];Lf [(5,1);(26,1)];Lf [(15,1);(26,1)];Lf [(15,2);(26,1)];Lf [(5,2);(26,1)]];
   Equal [Lf [(13,2);(26,1)];Lf [(3,2);(26,1)];Lf [(26,1)];Lf [(26,1)];Lf [(15,2);(26,1)];Lf [(5,2);(26,1)]];
   Never (Lf [(0,1);(7,1);(14,1)]);
   Never (Lf [(0,1);(1,1);(4,1);(5,1);(6,1);(13,1)]);
   Equal [Lf [(2,2);(6,2);(26,1)];Lf [(12,2);(16,2);(26,1)];Lf [(26,1)];Lf [(26,1)];Lf [(4,1);(15,2);(26,1)];Lf [(4,1);(5,2);(26,1)]];
   Never (Lf [(0,1);(1,1);(6,1);(13,1)]);
   Never (Lf [(0,1);(1,1);(6,1);(13,1);(15,1)]);
   Never (Lf [(0,2);(5,1);(14,1)]);
   Never (Nd 1 (Lf [(7,1);(12,1);(26,1)]) (Lf [(0,1);(2,1);(12,1);(14,1);(27,1)]));
   Never (Lf [(0,2);(1,1);(2,2);(5,1);(12,1);(13,1);(14,2)]);
   Never (Nd 3 (Lf [(2,1);(12,1);(17,1);(26,1)]) (Lf [(0,1);(17,1);(27,1)]));
   Never (Lf [(0,1);(1,1);(2,2);(7,1);(9,1);(13,1)]);
   Never (Nd 3 (Lf [(8,1);(14,1);(26,1)]) (Lf [(0,1);(7,1);(14,1);(27,1)]));
   Never (Lf [(0,1);(7,1);(14,1)]);
   Never (Nd 2 (Lf [(19,1);(26,1)]) (Lf [(0,1);(18,1);(27,1)]));
   Equal [Lf [(4,1);(13,2);(26,1)];Lf [(3,2);(4,1);(26,1)];Lf [(26,1)];Lf [(26,1)];Lf [(8,2);(26,1)];Lf [(18,2);(26,1)]];
   Never (Lf [(0,1);(7,1);(14,1)]);
   Never (Lf [(0,2);(5,1);(14,1)]);
   Equal [Nd 1 (Lf [(19,1);(27,1)]) (Nd 5 (Lf [(12,1);(29,1)]) (Lf [(2,2);(9,2);(26,1);(28,1);(30,1)]));Nd 1 (Lf [(19,1);(27,1)]) (Nd 2 (Nd 3 (Nd 4 (Nd 5 (Lf [(12,1);(32,1)]) (Nd 7 (Lf [(9,1);(34,1)]) (Nd 11 (Lf [(2,1);(36,1)]) (Lf [(12,2);(19,2);(26,1);(35,1);(37,1)])))) (Lf [(12,2);(16,2);(26,1);(32,1)])) (Lf [(0,1);(7,1);(12,2);(19,2);(26,1);(31,2)])) (Lf [(12,1);(16,1);(19,1);(26,1);(29,1)]));Lf [(26,1)];Lf [(26,1)];Nd 1 (Lf [(19,1);(27,1)]) (Nd 2 (Nd 3 (Nd 4 (Nd 5 (Lf [(12,1);(32,1)]) (Nd 7 (Lf [(9,1);(34,1)]) (Nd 11 (Lf [(2,1);(36,1)]) (Lf [(26,1);(35,1);(37,1)])))) (Lf [(8,2);(26,1);(32,1)])) (Lf [(0,1);(7,1);(26,1);(31,2)])) (Lf [(4,1);(9,2);(26,1);(29,2)]));Nd 1 (Lf [(19,1);(27,1)]) (Nd 5 (Lf [(12,1);(29,1)]) (Lf [(26,1);(28,1);(30,1)]))];
   Never (Lf [(0,1);(1,1);(6,1);(13,1);(14,1)]);
   Never (Lf [(0,1);(1,1);(8,1);(9,1);(13,1)]);
   Never (Lf [(0,1);(1,1);(2,2);(5,1);(6,1);(11,2);(13,1)]);
   Never (Lf [(0,1);(1,2);(2,2);(6,2);(11,1);(15,1)]);
   Never (Lf [(0,1);(1,1);(2,2);(6,1);(14,1)]);
   Never (Lf [(0,1);(1,2);(2,2);(6,1);(9,1);(15,1)]);
   Never (Lf [(0,1);(1,2);(2,2);(6,2);(11,1);(15,1)]);
   Never (Lf [(0,1);(1,1);(4,1);(6,1);(11,2);(12,2);(13,1)]);
   Never (Lf [(0,2);(2,1);(4,1);(9,1);(11,1);(13,2)]);
   Never (Lf [(0,1);(1,1);(2,2);(6,1);(14,1)]);
   Never (Nd 0 (Lf [(9,1);(15,1);(26,1)]) (Lf [(0,1);(1,1);(2,2);(9,1);(11,2);(12,3);(27,1)]));
   Never (Lf [(0,1);(1,2);(2,2);(7,1);(13,1)]);
   Never (Lf [(0,1);(1,1);(2,1);(5,1);(11,1);(12,1);(13,1)]);
   Never (Lf [(0,1);(1,1);(2,1);(5,1);(12,1);(14,1)]);
   Never (Nd 1 (Lf [(1,1);(5,1);(11,1);(12,2);(15,1);(26,2)]) (Lf [(0,1);(1,2);(2,4);(11,1);(12,3);(15,2);(27,1)]));
   Never (Lf [(0,1);(1,1);(2,1);(5,1);(9,1);(11,1);(13,1)]);
   Never (Lf [(0,2);(5,1);(13,1)]);
   Never (Lf [(0,1);(1,1);(2,2);(6,1);(14,1)]);
   Never (Nd 0 (Lf [(2,1);(6,1);(11,1);(26,1)]) (Nd 1 (Lf [(1,1);(6,1);(11,1);(28,1)]) (Lf [(0,1);(1,2);(2,1);(11,1);(13,1);(27,1);(29,1)])));
   Never (Nd 0 (Lf [(2,1);(6,1);(11,1);(26,1)]) (Lf [(0,1);(1,3);(2,2);(9,1);(11,2);(16,1);(27,1)]));
   Never (Lf [(0,1);(1,2);(2,2);(6,1);(9,1);(14,1)]);
   Never (Lf [(0,1);(1,2);(2,1);(4,1);(9,1);(11,1);(13,1)]);
   Never (Lf [(0,1);(1,1);(6,1);(15,1)]);
   Never (Lf [(0,1);(1,1);(6,1);(15,1)]);
   Never (Lf [(0,1);(1,1);(6,1);(15,1)]);
   Never (Lf [(0,1);(1,1);(4,1);(5,1);(6,1);(14,1)]);
   Never (Lf [(0,1);(1,1);(2,2);(6,1);(15,1)]);
   Never (Lf [(0,1);(1,1);(2,2);(6,1);(15,1)]);
   Never (Lf [(0,1);(1,1);(4,1);(11,1);(13,1)]);
   Never (Lf [(0,1);(1,1);(2,2);(6,1);(15,1)]);
   Never (Lf [(0,1);(1,2);(2,2);(6,1);(9,1);(14,1)]);
   Never (Lf [(0,1);(1,1);(4,1);(11,1);(13,1)]);
   Never (Nd 1 (Lf [(1,1);(5,1);(9,1);(11,1);(16,1);(26,1)]) (Lf [(0,1);(1,2);(2,2);(9,1);(11,1);(16,2);(27,1)]));
   Never (Nd 0 (Lf [(2,1);(12,1);(26,1)]) (Lf [(0,1);(1,1);(11,1);(13,1);(27,1)]));
   Never (Lf [(0,1);(1,1);(5,1);(19,1)]);
   Never (Lf [(0,1);(1,1);(4,1);(5,1);(6,1);(14,1)]);
   Never (Nd 0 (Lf [(12,1);(26,1)]) (Lf [(0,1);(1,1);(2,1);(5,1);(11,1);(14,1);(27,1)]));
   Never (Nd 1 (Lf [(5,1);(11,1);(16,1);(26,1)]) (Lf [(0,1);(1,1);(2,2);(11,1);(16,1);(19,1);(27,1)]));
   Never (Lf [(0,1);(1,2);(2,1);(4,1);(9,1);(11,1);(13,1)]);
   Never (Nd 0 (Lf [(4,1);(9,1);(13,1);(26,1)]) (Lf [(0,1);(1,2);(2,1);(9,1);(11,1);(13,1);(27,1)]));
   Never (Lf [(0,1);(1,1);(6,1);(14,1);(15,1)]);
   Never (Lf [(0,1);(1,1);(6,1);(14,1)])].
Definition certs_00_4 : list cert :=
  [Never (Nd 0 (Lf [(2,1);(6,1);(11,1);(26,1)]) (Lf [(0,1);(1,2);(2,1);(5,1);(11,1);(15,1);(27,1)]));
   Never (Lf [(0,2);(5,1);(13,1)]);
   Never (Lf [(0,1);(1,1);(2,1);(5,1);(9,1);(11,1);(13,1)]);
   Never (Lf [(0,1);(1,2);(2,2);(5,2);(11,1);(12,3);(14,1)]);
   Never (Nd 1 (Lf [(1,2);(5,1);(9,1);(11,1);(12,2);(26,2)]) (Lf [(0,1);(1,3);(2,3);(9,1);(11,1);(12,3);(27,1)]));
   Never (Lf [(0,1);(1,1);(2,1);(5,1);(11,1);(12,1);(13,1)]);
   Never (Lf [(0,1);(1,2);(2,2);(7,1);(13,1)]);
   Never (Lf [(0,1);(1,1);(6,1);(14,1)]);
   Never (Nd 0 (Lf [(2,1);(19,1);(26,1)]) (Lf [(0,1);(1,1);(9,1);(11,2);(12,3);(17,1);(27,1)]));
   Never (Lf [(0,2);(2,1);(4,1);(9,1);(11,1);(13,2)]);
   Never (Lf [(0,1);(1,1);(4,1);(6,1);(11,2);(12,2);(13,1)]);
   Never (Nd 0 (Lf [(6,1);(11,1);(14,1);(26,1)]) (Lf [(0,1);(1,2);(11,2);(16,1);(18,1);(27,1)]));
   Never (Lf [(0,1);(1,1);(6,1);(14,1)]);
   Never (Nd 1 (Lf [(1,1);(5,1);(6,1);(11,1);(13,1);(26,2)]) (Lf [(0,1);(1,2);(2,4);(6,2);(11,1);(13,2);(27,1)]));
   Never (Lf [(0,1);(1,1);(4,1);(5,1);(6,1);(14,1)]);
   Never (Lf [(0,1);(1,1);(2,2);(5,1);(6,1);(11,2);(13,1)]);
   Never (Lf [(0,1);(1,2);(2,2);(6,1);(9,1);(13,1)]);
   Never (Lf [(0,1);(1,2);(2,2);(6,1);(9,1);(13,1);(15,1)]);
   Never (Lf [(0,2);(1,2);(5,1);(14,1)]);
   Never (Lf [(0,1);(1,1);(6,1);(14,1);(15,1)]);
   Never (Nd 0 (Lf [(4,1);(9,1);(15,1);(26,1)]) (Lf [(0,1);(1,3);(8,1);(9,1);(15,2);(27,1)]));
   Never (Lf [(0,1);(1,1);(8,1);(9,1);(13,1)]);
   Never (Lf [(0,1);(1,2);(8,1);(15,1)]);
   Never (Lf [(0,1);(1,1);(6,1);(14,1)]);
   Never (Lf [(0,1);(1,2);(8,1);(15,1)]);
   Never (Lf [(0,1);(1,1);(6,1);(14,1)]);
   Never (Lf [(0,1);(1,2);(2,2);(7,1);(13,1)]);
   Never (Lf [(0,2);(1,2);(5,1);(14,1)]);
   Never (Nd 1 (Lf [(1,1);(7,1);(12,1);(26,1)]) (Lf [(0,1);(1,1);(2,1);(12,1);(14,1);(27,1)]));
   Never (Nd 3 (Lf [(1,1);(2,1);(12,1);(17,1);(26,1)]) (Lf [(0,1);(1,1);(17,1);(27,1)]));
   Never (Lf [(0,1);(1,1);(8,1);(9,1);(13,1);(14,1)]);
   Never (Lf [(0,1);(7,1);(13,1)]);
   Never (Lf [(0,1);(1,1);(6,1);(14,1)]);
   Equal [Nd 0 (Lf [(11,1);(27,1)]) (Lf [(26,1);(28,1)]);Nd 6 (Lf [(1,1);(27,1)]) (Lf [(26,1);(28,1)]);Nd 6 (Lf [(1,1);(27,1)]) (Lf [(26,1);(28,1)]);Nd 0 (Lf [(11,1);(27,1)]) (Lf [(26,1);(28,1)]);Lf [(26,1)];Lf [(26,1)]];
   Never (Lf [(0,1);(1,1);(4,1);(5,1);(6,1);(13,1)]);
   Never (Lf [(0,1);(1,1);(6,1);(15,1)]);
   Never (Lf [(0,2);(1,2);(5,1);(14,1);(15,1)]);
   Never (Lf [(0,1);(1,1);(6,1);(15,1)]);
   Never (Lf [(0,1);(1,1);(6,1);(15,1)]);
   Never (Lf [(0,2);(1,2);(5,1);(14,1)]);
   Equal [Nd 0 (Lf [(2,1);(12,1);(27,1)]) (Lf [(13,2);(26,1);(28,1)]);Lf [(3,1);(4,1);(26,1)];Lf [(13,1);(14,1);(26,1)];Lf [(4,1);(5,1);(26,1)];Lf [(3,1);(14,1);(26,1)];Nd 0 (Lf [(2,1);(12,1);(27,1)]) (Lf [(5,1);(13,1);(26,1);(28,1)])];
   Never (Nd 1 (Lf [(1,1);(7,1);(16,1);(26,1)]) (Lf [(0,1);(1,1);(2,1);(3,1);(14,1);(16,1);(27,1)]));
   Never (Nd 7 (Lf [(1,1);(2,1);(17,1);(26,1)]) (Lf [(0,1);(1,2);(4,1);(8,1);(13,1);(27,1)]));
   Equal [Nd 0 (Lf [(2,1);(9,1);(19,1);(27,1)]) (Nd 1 (Lf [(1,1);(9,1);(19,1);(29,1)]) (Lf [(1,1);(2,2);(9,1);(26,1);(28,1);(30,1)]));Nd 0 (Lf [(2,1);(9,1);(19,1);(27,1)]) (Nd 1 (Lf [(1,1);(9,1);(19,1);(29,1)]) (Nd 2 (Nd 3 (Nd 4 (Nd 5 (Lf [(1,1);(2,1);(19,1);(34,1)]) (Nd 6 (Lf [(1,1);(9,1);(19,1);(36,1)]) (Nd 7 (Lf [(1,1);(2,1);(19,1);(38,1)]) (Lf [(26,1);(37,1);(39,1)])))) (Lf [(1,2);(8,2);(19,2);(26,1);(34,1)])) (Lf [(1,1);(3,1);(9,1);(19,2);(26,1);(33,1)])) (Lf [(1,2);(4,1);(9,2);(19,2);(26,1);(31,2)])));Lf [(1,1);(9,1);(26,1)];Lf [(2,1);(19,1);(26,1)];Nd 0 (Lf [(2,1);(9,1);(19,1);(27,1)]) (Nd 1 (Lf [(1,1);(9,1);(19,1);(29,1)]) (Nd 2 (Nd 3 (Nd 4 (Nd 5 (Lf [(1,1);(2,1);(19,1);(34,1)]) (Nd 6 (Lf [(1,1);(9,1);(19,1);(36,1)]) (Nd 7 (Lf [(1,1);(2,1);(19,1);(38,1)]) (Lf [(1,1);(2,2);(9,1);(26,1);(37,1);(39,1)])))) (Lf [(1,1);(2,1);(8,1);(16,1);(26,1);(34,1)])) (Lf [(3,1);(26,1);(33,1)])) (Lf [(1,1);(4,1);(9,1);(26,1);(31,2)])));Nd 0 (Lf [(2,1);(9,1);(19,1);(27,1)]) (Nd 1 (Lf [(1,1);(9,1);(19,1);(29,1)]) (Lf [(26,1);(28,1);(30,1)]))];
   Never (Lf [(0,1);(1,2);(8,1);(14,1);(15,1)]);
   Never (Lf [(0,1);(1,2);(8,1);(14,1)]);
   Never (Nd 0 (Lf [(2,1);(7,1);(16,1);(26,1)]) (Nd 1 (Lf [(1,1);(7,1);(16,1);(28,1)]) (Nd 3 (Lf [(1,1);(2,1);(16,1);(30,1)]) (Lf [(0,1);(1,1);(2,1);(16,1);(29,1);(31,1)]))));
   Equal [Lf [(13,1);(15,1);(26,1)];Lf [(3,1);(4,1);(26,1)];Lf [(5,1);(13,1);(26,1)];Nd 7 (Lf [(1,1);(2,1);(27,1)]) (Lf [(3,1);(4,1);(26,1);(28,1)]);Nd 7 (Lf [(1,1);(2,1);(27,1)]) (Lf [(26,1);(28,1)]);Lf [(3,1);(5,1);(26,1)]];
   Never (Lf [(0,1);(1,1);(5,1);(17,1)]);
   Never (Nd 0 (Lf [(4,1);(6,1);(12,1);(14,1);(26,1)]) (Lf [(0,1);(1,2);(12,1);(14,1);(27,1)]));
   Never (Lf [(0,1);(1,2);(8,1);(14,1)]);
   Never (Nd 1 (Lf [(1,1);(7,1);(19,1);(26,1)]) (Lf [(0,1);(1,1);(2,1);(17,1);(18,1);(19,1);(27,1)]));
   Never (Nd 0 (Lf [(2,1);(6,1);(12,1);(26,1)]) (Lf [(0,1);(1,2);(2,1);(5,1);(12,1);(13,1);(27,1)]));
   Never (Lf [(0,1);(1,1);(4,1);(5,1);(6,1);(13,1)]);
   Equal [Lf [(4,1);(14,1);(26,1)];Nd 6 (Lf [(1,1);(27,1)]) (Lf [(3,2);(26,1);(28,1)]);Nd 6 (Lf [(1,1);(27,1)]) (Lf [(26,1);(28,1)]);Lf [(3,1);(4,1);(26,1)];Lf [(15,2);(26,1)];Lf [(5,2);(26,1)]];
   Equal [Nd 0 (Lf [(11,1);(27,1)]) (Lf [(5,1);(26,1);(28,1)]);Lf [(1,1);(7,1);(15,1);(17,1);(26,1)];Lf [(1,1);(5,1);(9,1);(26,1)];Nd 0 (Lf [(11,1);(27,1)]) (Lf [(17,2);(26,1);(28,1)]);Lf [(15,2);(26,1)];Lf [(5,2);(26,1)]];
   Never (Lf [(0,1);(7,1);(13,1)]);
   Never (Lf [(0,1);(7,1);(13,1);(15,1)]);
   Never (Lf [(0,1);(1,2);(8,1);(14,1)]);
   Never (Nd 1 (Lf [(1,1);(7,1);(12,1);(26,1)]) (Lf [(0,1);(1,1);(2,1);(3,1);(12,1);(15,1);(27,1)]));
   Never (Lf [(0,1);(1,1);(5,1);(17,1)]);
   Never (Lf [(0,1);(1,2);(2,2);(7,1);(13,1)]);
   Never (Lf [(0,1);(1,2);(2,2);(7,1);(13,1);(15,1)]);
   Equal [Lf [(4,1);(26,1)];Nd 4 (Lf [(1,1);(18,1);(27,1)]) (Lf [(26,1);(28,1)]);Nd 4 (Lf [(1,1);(18,1);(27,1)]) (Lf [(14,1);(26,1);(28,1)]);Lf [(3,1);(4,1);(26,1)];Lf [(1,2);(8,2);(26,1)];Lf [(18,2);(26,1)]]].
Definition certs_00_5 : list cert :=
  [Never (Nd 0 (Lf [(9,1);(13,1);(26,1)]) (Lf [(0,1);(1,2);(9,1);(17,2);(18,1);(27,1)]));
   Never (Lf [(0,1);(7,1);(13,1);(14,1)]);
   Never (Lf [(0,1);(1,1);(8,1);(9,1);(13,1)]);
   Never (Lf [(0,1);(1,2);(8,1);(14,1)]);
   Equal [Lf [(2,1);(9,2);(12,1);(26,1)];Lf [(1,2);(2,1);(12,1);(26,1)];Nd 1 (Lf [(1,1);(9,1);(12,1);(27,1)]) (Lf [(26,1);(28,1)]);Nd 7 (Lf [(1,1);(2,1);(9,1);(27,1)]) (Lf [(2,1);(12,1);(26,1);(28,1)]);Nd 7 (Lf [(1,1);(2,1);(9,1);(27,1)]) (Lf [(26,1);(28,1)]);Nd 1 (Lf [(1,1);(9,1);(12,1);(27,1)]) (Lf [(2,1);(12,1);(26,1);(28,1)])];
   Never (Lf [(0,1);(1,1);(5,1);(17,1)]);
   Never (Lf [(0,1);(1,2);(2,2);(7,1);(13,1);(14,1)]);
   Never (Lf [(0,1);(1,2);(2,2);(6,1);(9,1);(13,1)]);
   Never (Lf [(0,1);(1,1);(2,2);(7,1);(9,1);(13,1)]);
   Never (Lf [(0,1);(1,1);(2,2);(7,1);(9,1);(13,1);(15,1)]);
   Never (Lf [(0,1);(1,2);(2,2);(7,1);(14,1);(15,1)]);
   Never (Nd 1 (Lf [(1,1);(5,1);(9,1);(15,1);(26,2)]) (Lf [(0,1);(1,2);(2,4);(6,1);(9,1);(15,2);(27,1)]));
   Never (Lf [(0,1);(1,2);(2,2);(7,1);(14,1)]);
   Never (Lf [(0,1);(8,1);(13,1)]);
   Never (Nd 6 (Lf [(2,1);(12,1);(26,1)]) (Lf [(0,1);(1,2);(3,1);(8,1);(27,1)]));
   Never (Nd 0 (Lf [(2,1);(6,1);(19,1);(26,1)]) (Lf [(0,1);(1,1);(2,2);(9,1);(12,1);(17,3);(27,1)]));
   Never (Lf [(0,1);(3,1);(5,1);(7,1);(13,1)]);
   Never (Lf [(0,1);(1,2);(2,2);(7,1);(15,1)]);
   Never (Lf [(0,1);(1,2);(2,2);(7,1);(15,1)]);
   Never (Lf [(0,2);(1,2);(2,2);(3,1);(14,1);(15,1)]);
   Never (Lf [(0,1);(1,2);(2,2);(7,1);(15,1)]);
   Never (Lf [(0,2);(5,1);(13,1)]);
   Equal [Lf [(13,1);(14,1);(26,1)];Lf [(3,1);(5,1);(26,1)];Nd 1 (Lf [(1,1);(11,1);(27,1)]) (Lf [(13,1);(14,1);(26,1);(28,1)]);Lf [(3,1);(4,1);(26,1)];Lf [(4,1);(13,1);(26,1)];Nd 1 (Lf [(1,1);(11,1);(27,1)]) (Lf [(26,1);(28,1)])];
   Never (Nd 0 (Lf [(2,1);(11,1);(26,1)]) (Lf [(0,1);(1,1);(2,1);(5,1);(13,1);(17,1);(27,1)]));
   Never (Nd 6 (Lf [(1,1);(2,1);(26,1)]) (Lf [(0,1);(3,1);(4,1);(8,1);(27,1)]));
   Equal [Lf [(2,1);(9,1);(11,1);(26,1)];Lf [(1,1);(2,1);(19,1);(26,1)];Nd 1 (Lf [(1,1);(11,1);(27,1)]) (Lf [(1,1);(2,2);(9,1);(26,1);(28,1)]);Nd 7 (Lf [(2,1);(11,1);(19,1);(27,1)]) (Lf [(26,1);(28,1)]);Nd 7 (Lf [(2,1);(11,1);(19,1);(27,1)]) (Lf [(1,1);(2,2);(9,1);(26,1);(28,1)]);Nd 1 (Lf [(1,1);(11,1);(27,1)]) (Lf [(26,1);(28,1)])];
   Never (Lf [(0,1);(1,2);(2,2);(6,2);(12,1);(13,1)]);
   Never (Lf [(0,1);(1,1);(2,2);(6,1);(15,1)]);
   Never (Lf [(0,1);(1,2);(2,2);(7,1);(14,1)]);
   Never (Lf [(0,1);(1,1);(2,2);(6,1);(15,1)]);
   Never (Lf [(0,1);(1,1);(2,2);(6,1);(15,1)]);
   Never (Lf [(0,1);(1,2);(2,2);(6,1);(9,1);(13,1);(14,1)]);
   Never (Lf [(0,1);(1,2);(8,1);(13,1)]);
   Never (Lf [(0,1);(1,2);(2,2);(7,1);(14,1)]);
   Equal [Nd 0 (Lf [(12,1);(27,1)]) (Nd 1 (Lf [(11,1);(29,1)]) (Lf [(26,1);(28,1);(30,1)]));Nd 0 (Lf [(12,1);(27,1)]) (Nd 1 (Lf [(11,1);(29,1)]) (Nd 2 (Nd 3 (Nd 6 (Lf [(2,1);(33,1)]) (Nd 7 (Lf [(1,1);(35,1)]) (Lf [(26,1);(34,1);(36,1)]))) (Lf [(3,1);(26,1);(33,1)])) (Lf [(1,1);(4,1);(9,1);(26,1);(31,2)])));Lf [(26,1)];Lf [(26,1)];Nd 0 (Lf [(12,1);(27,1)]) (Nd 1 (Lf [(11,1);(29,1)]) (Nd 2 (Nd 3 (Nd 6 (Lf [(2,1);(33,1)]) (Nd 7 (Lf [(1,1);(35,1)]) (Lf [(26,1);(34,1);(36,1)]))) (Lf [(3,1);(26,1);(33,1)])) (Lf [(1,1);(4,1);(9,1);(26,1);(31,2)])));Nd 0 (Lf [(12,1);(27,1)]) (Nd 1 (Lf [(11,1);(29,1)]) (Lf [(26,1);(28,1);(30,1)]))];
   Never (Lf [(0,1);(1,1);(5,1);(16,1)]);
   Never (Lf [(0,1);(1,1);(5,1);(16,1)]);
   Equal [Lf [(5,1);(15,1);(26,1)];Nd 6 (Lf [(2,1);(27,1)]) (Lf [(3,1);(4,1);(26,1);(28,1)]);Lf [(14,2);(26,1)];Lf [(4,2);(26,1)];Nd 6 (Lf [(2,1);(27,1)]) (Lf [(4,1);(15,1);(26,1);(28,1)]);Lf [(3,1);(5,1);(26,1)]];
   Never (Nd 7 (Lf [(1,1);(17,1);(26,1)]) (Lf [(0,1);(1,2);(2,2);(3,1);(7,1);(27,1)]));
   Never (Lf [(0,1);(1,2);(8,1);(13,1)]);
   Never (Lf [(0,1);(1,2);(8,1);(13,1);(15,1)]);
   Never (Lf [(0,1);(1,1);(5,1);(19,1)]);
   Never (Nd 0 (Lf [(2,1);(6,1);(12,1);(26,1)]) (Lf [(0,1);(1,2);(2,1);(12,1);(14,1);(27,1)]));
   Never (Nd 1 (Lf [(1,2);(5,1);(9,1);(12,1);(17,2);(26,2)]) (Lf [(0,1);(1,3);(2,3);(9,1);(12,1);(17,3);(27,1)]));
   Never (Lf [(0,2);(1,3);(2,1);(4,1);(12,1);(13,1);(14,2)]);
   Never (Lf [(0,1);(1,2);(2,2);(6,2);(12,1);(13,1)]);
   Never (Lf [(0,1);(1,1);(2,2);(6,1);(14,1);(15,1)]);
   Never (Nd 0 (Lf [(2,1);(11,1);(26,1)]) (Nd 6 (Lf [(1,1);(2,1);(28,1)]) (Lf [(0,1);(8,1);(15,2);(27,1);(29,1)])));
   Never (Lf [(0,1);(1,1);(2,2);(6,1);(14,1)]);
   Equal [Nd 0 (Lf [(2,1);(11,1);(27,1)]) (Lf [(13,1);(15,1);(26,1);(28,1)]);Lf [(3,1);(5,1);(26,1)];Lf [(3,1);(15,1);(26,1)];Nd 0 (Lf [(2,1);(11,1);(27,1)]) (Lf [(26,1);(28,1)]);Lf [(13,1);(15,1);(26,1)];Lf [(4,1);(5,1);(26,1)]];
   Never (Lf [(0,2);(5,1);(13,1)]);
   Never (Nd 1 (Lf [(1,1);(5,1);(9,1);(14,1);(26,2)]) (Lf [(0,1);(1,1);(2,2);(12,1);(14,1);(27,1)]));
   Never (Nd 3 (Lf [(1,1);(2,1);(18,1);(26,1)]) (Lf [(0,1);(19,1);(27,1)]));
   Never (Lf [(0,1);(1,1);(2,2);(6,1);(14,1)]);
   Never (Nd 1 (Lf [(7,1);(12,1);(26,1)]) (Lf [(0,1);(2,1);(3,1);(12,1);(13,1);(27,1)]));
   Never (Lf [(0,1);(3,1);(5,1);(7,1);(13,1)]);
   Never (Lf [(0,1);(1,1);(2,2);(6,1);(14,1)]);
   Never (Nd 6 (Lf [(2,1);(12,1);(26,1)]) (Lf [(0,1);(1,2);(4,1);(8,1);(15,1);(27,1)]));
   Never (Lf [(0,1);(8,1);(13,1)]);
   Never (Lf [(0,1);(8,1);(13,1);(15,1)]);
   Never (Lf [(0,1);(1,1);(2,2);(6,1);(14,1)]);
   Equal [Nd 0 (Lf [(19,1);(27,1)]) (Lf [(1,1);(9,1);(26,1);(28,1)]);Nd 6 (Lf [(2,1);(12,1);(27,1)]) (Lf [(26,1);(28,1)]);Nd 6 (Lf [(2,1);(12,1);(27,1)]) (Lf [(1,1);(9,1);(26,1);(28,1)]);Nd 0 (Lf [(19,1);(27,1)]) (Lf [(26,1);(28,1)]);Lf [(1,1);(2,2);(9,1);(26,1)];Lf [(9,1);(12,2);(19,1);(26,1)]];
   Never (Lf [(0,1);(8,1);(13,1);(14,1)]);
   Never (Lf [(0,1);(1,1);(2,2);(7,1);(9,1);(13,1)])].
Definition certs_00_6 : list cert :=
  [Never (Lf [(0,1);(1,2);(2,2);(6,1);(9,1);(13,1)]);
   Never (Lf [(0,1);(1,2);(8,1);(13,1);(14,1)]);
   Equal [Lf [(2,1);(9,2);(12,1);(26,1)];Lf [(1,2);(2,1);(12,1);(26,1)];Lf [(26,1)];Lf [(26,1)];Lf [(1,1);(2,2);(9,1);(26,1)];Lf [(1,1);(9,1);(12,2);(26,1)]];
   Never (Lf [(0,1);(1,2);(2,2);(7,1);(14,1)]);
   Never (Lf [(0,1);(1,2);(8,1);(13,1);(15,1)]);
   Never (Lf [(0,1);(1,2);(8,1);(13,1)]);
   Never (Nd 6 (Lf [(1,1);(2,1);(12,1);(26,1)]) (Lf [(0,1);(3,1);(8,1);(15,1);(27,1)]));
   Never (Lf [(0,1);(1,2);(2,2);(7,1);(14,1)]);
   Never (Lf [(0,1);(1,1);(2,2);(7,1);(9,1);(13,1)]);
   Never (Lf [(0,2);(2,1);(3,1);(12,1);(13,1);(14,2)]);
   Never (Nd 1 (Lf [(5,1);(9,1);(12,1);(17,2);(26,2)]) (Lf [(0,1);(2,3);(9,1);(12,2);(17,3);(27,1)]));
   Never (Nd 0 (Lf [(2,1);(7,1);(18,1);(26,1)]) (Nd 1 (Lf [(7,1);(12,1);(28,1)]) (Nd 3 (Lf [(2,1);(12,1);(30,1)]) (Lf [(0,1);(2,1);(12,1);(29,1);(31,1)]))));
   Never (Lf [(0,1);(5,1);(19,1)]);
   Never (Lf [(0,1);(8,1);(13,1);(15,1)]);
   Never (Lf [(0,1);(8,1);(13,1)]);
   Never (Nd 0 (Lf [(2,1);(11,1);(26,1)]) (Lf [(0,1);(1,1);(2,1);(15,1);(17,1);(27,1)]));
   Equal [Lf [(5,1);(14,1);(26,1)];Nd 6 (Lf [(1,1);(2,1);(27,1)]) (Lf [(3,2);(26,1);(28,1)]);Lf [(14,1);(15,1);(26,1)];Lf [(3,1);(4,1);(26,1)];Nd 6 (Lf [(1,1);(2,1);(27,1)]) (Lf [(3,1);(15,1);(26,1);(28,1)]);Lf [(4,1);(5,1);(26,1)]];
   Never (Lf [(0,1);(5,1);(16,1)]);
   Never (Lf [(0,1);(1,1);(4,1);(5,1);(6,1);(13,1)]);
   Never (Nd 0 (Lf [(2,1);(6,1);(12,1);(26,1)]) (Lf [(0,1);(1,2);(2,1);(5,1);(12,1);(13,1);(27,1)]));
   Never (Lf [(0,1);(1,2);(2,2);(7,1);(14,1)]);
   Never (Nd 0 (Lf [(4,1);(12,1);(17,1);(19,1);(26,1)]) (Lf [(0,1);(1,1);(2,1);(17,1);(18,2);(27,1)]));
   Never (Nd 1 (Lf [(1,1);(5,1);(6,1);(12,1);(14,1);(26,2)]) (Lf [(0,1);(1,2);(2,4);(6,2);(12,1);(14,2);(27,1)]));
   Never (Lf [(0,2);(1,2);(5,1);(13,1)]);
   Equal [Lf [(13,1);(15,1);(26,1)];Lf [(3,1);(5,1);(26,1)];Lf [(26,1)];Lf [(26,1)];Lf [(13,1);(15,1);(26,1)];Lf [(3,1);(5,1);(26,1)]];
   Never (Lf [(0,1);(1,2);(2,2);(7,1);(14,1)]);
   Never (Nd 0 (Lf [(8,1);(16,1);(26,1)]) (Nd 1 (Lf [(11,1);(28,1)]) (Nd 2 (Nd 3 (Nd 6 (Lf [(2,1);(32,1)]) (Lf [(1,2);(8,1);(15,1);(31,1);(33,1)])) (Lf [(0,1);(1,1);(16,1);(32,1)])) (Lf [(0,1);(1,1);(15,1);(30,1)]))));
   Never (Lf [(0,1);(1,2);(2,2);(7,1);(14,1);(15,1)]);
   Equal [Nd 0 (Lf [(2,1);(9,1);(19,1);(27,1)]) (Lf [(1,1);(9,1);(26,1);(28,1)]);Nd 0 (Lf [(2,1);(9,1);(19,1);(27,1)]) (Nd 1 (Lf [(1,1);(9,1);(19,1);(29,1)]) (Nd 7 (Lf [(1,1);(19,1);(31,1)]) (Lf [(2,2);(26,1);(30,1);(32,1)])));Nd 1 (Lf [(11,1);(27,1)]) (Lf [(1,1);(2,2);(9,1);(26,1);(28,1)]);Nd 0 (Lf [(2,1);(9,1);(19,1);(27,1)]) (Nd 7 (Lf [(1,1);(19,1);(29,1)]) (Lf [(26,1);(28,1);(30,1)]));Nd 7 (Lf [(1,1);(19,1);(27,1)]) (Lf [(1,1);(2,2);(9,1);(26,1);(28,1)]);Nd 0 (Lf [(2,1);(9,1);(19,1);(27,1)]) (Nd 1 (Lf [(11,1);(29,1)]) (Lf [(26,1);(28,1);(30,1)]))];
   Never (Nd 6 (Lf [(2,1);(26,1)]) (Lf [(0,1);(1,2);(3,1);(4,1);(8,1);(27,1)]));
   Never (Nd 1 (Lf [(11,1);(26,1)]) (Lf [(0,1);(1,1);(2,1);(3,1);(13,1);(17,1);(27,1)]));
   Equal [Nd 0 (Lf [(12,1);(27,1)]) (Lf [(13,1);(14,1);(26,1);(28,1)]);Lf [(3,1);(5,1);(26,1)];Lf [(14,2);(26,1)];Lf [(4,2);(26,1)];Lf [(3,1);(13,1);(26,1)];Nd 0 (Lf [(12,1);(27,1)]) (Lf [(5,1);(14,1);(26,1);(28,1)])];
   Never (Lf [(0,2);(1,2);(5,1);(13,1)]);
   Never (Lf [(0,1);(1,1);(2,2);(6,1);(15,1)]);
   Never (Lf [(0,2);(1,2);(2,2);(4,1);(14,1);(15,1)]);
   Never (Lf [(0,1);(1,1);(2,2);(6,1);(15,1)]);
   Never (Lf [(0,1);(1,1);(2,2);(6,1);(15,1)]);
   Never (Lf [(0,1);(1,1);(4,1);(5,1);(6,1);(13,1)]);
   Never (Lf [(0,1);(5,1);(16,1)]);
   Equal [Nd 0 (Lf [(2,1);(11,1);(27,1)]) (Nd 1 (Lf [(1,1);(11,1);(29,1)]) (Lf [(26,1);(28,1);(30,1)]));Nd 6 (Lf [(1,1);(2,1);(27,1)]) (Lf [(26,1);(28,1)]);Nd 0 (Lf [(2,1);(11,1);(27,1)]) (Nd 1 (Lf [(1,1);(11,1);(29,1)]) (Nd 6 (Lf [(1,1);(2,1);(31,1)]) (Lf [(26,1);(30,1);(32,1)])));Nd 0 (Lf [(2,1);(11,1);(27,1)]) (Lf [(26,1);(28,1)]);Nd 0 (Lf [(2,1);(11,1);(27,1)]) (Nd 6 (Lf [(1,1);(2,1);(29,1)]) (Lf [(26,1);(28,1);(30,1)]));Nd 1 (Lf [(1,1);(11,1);(27,1)]) (Lf [(26,1);(28,1)])];
   Never (Lf [(0,1);(1,1);(2,2);(6,1);(14,1)]);
   Never (Lf [(0,1);(8,1);(13,1)]);
   Never (Lf [(0,1);(1,1);(2,2);(7,1);(9,1);(13,1);(14,1)]);
   Never (Lf [(0,1);(1,2);(2,2);(7,1);(15,1)]);
   Never (Lf [(0,1);(1,2);(2,2);(7,1);(15,1)]);
   Never (Lf [(0,1);(1,1);(2,2);(6,1);(14,1)]);
   Never (Lf [(0,1);(1,2);(2,2);(7,1);(15,1)]);
   Never (Lf [(0,1);(1,1);(2,2);(7,1);(9,1);(13,1)]);
   Never (Nd 3 (Lf [(1,1);(2,1);(17,1);(26,1)]) (Lf [(0,1);(1,1);(12,1);(17,1);(27,1)]));
   Never (Nd 6 (Lf [(1,1);(2,1);(12,1);(26,1)]) (Lf [(0,1);(4,1);(8,1);(27,1)]));
   Never (Lf [(0,1);(1,2);(8,1);(13,1)]);
   Never (Lf [(0,1);(1,1);(2,2);(6,1);(14,1)]);
   Never (Nd 1 (Lf [(1,1);(5,1);(9,1);(15,1);(26,2)]) (Lf [(0,1);(1,2);(2,4);(6,1);(9,1);(15,2);(27,1)]));
   Never (Lf [(0,1);(1,1);(2,2);(6,1);(14,1);(15,1)]);
   Never (Lf [(0,1);(1,2);(2,2);(6,1);(9,1);(13,1);(15,1)]);
   Never (Lf [(0,1);(1,2);(2,2);(6,1);(9,1);(13,1)]);
   Never (Lf [(0,1);(1,1);(8,1);(9,1);(13,1)]);
   Never (Lf [(0,1);(7,1);(13,1);(14,1)]);
   Never (Lf [(0,2);(1,2);(5,1);(14,1)]);
   Equal [Nd 0 (Lf [(2,1);(19,1);(27,1)]) (Nd 1 (Lf [(1,1);(19,1);(29,1)]) (Lf [(1,1);(2,2);(9,1);(26,1);(28,1);(30,1)]));Nd 6 (Lf [(1,1);(12,1);(19,1);(27,1)]) (Lf [(26,1);(28,1)]);Nd 0 (Lf [(2,1);(19,1);(27,1)]) (Nd 1 (Lf [(1,1);(19,1);(29,1)]) (Nd 6 (Lf [(1,1);(12,1);(19,1);(31,1)]) (Lf [(1,1);(2,2);(9,1);(26,1);(30,1);(32,1)])));Nd 0 (Lf [(2,1);(19,1);(27,1)]) (Lf [(26,1);(28,1)]);Nd 0 (Lf [(2,1);(19,1);(27,1)]) (Nd 6 (Lf [(1,1);(12,1);(19,1);(29,1)]) (Lf [(1,2);(2,2);(9,2);(26,1);(28,1);(30,1)]));Nd 1 (Lf [(1,1);(19,1);(27,1)]) (Lf [(2,1);(12,1);(19,1);(26,1);(28,1)])];
   Never (Lf [(0,1);(1,1);(6,1);(14,1)]);
   Equal [Lf [(4,1);(13,2);(26,1)];Lf [(3,2);(4,1);(26,1)];Lf [(3,2);(13,1);(26,1)];Lf [(4,2);(13,1);(26,1)];Lf [(1,2);(8,2);(26,1)];Lf [(18,2);(26,1)]];
   Never (Lf [(0,1);(1,1);(6,1);(14,1)]);
   Never (Nd 3 (Lf [(19,1);(26,1)]) (Lf [(0,1);(1,1);(18,1);(27,1)]))].
Definition certs_00_7 : list cert :=
  [Never (Nd 0 (Lf [(4,1);(9,1);(14,1);(26,1)]) (Lf [(0,1);(1,3);(8,1);(9,1);(14,2);(27,1)]));
   Never (Lf [(0,1);(7,1);(13,1);(15,1)]);
   Never (Lf [(0,1);(7,1);(13,1)]);
   Never (Lf [(0,1);(3,1);(5,1);(7,1);(13,1)]);
   Never (Nd 1 (Lf [(1,1);(16,1);(26,1)]) (Lf [(0,1);(3,1);(12,1);(15,1);(27,1)]));
   Never (Lf [(0,1);(1,1);(6,1);(14,1)]);
   Equal [Nd 0 (Lf [(11,1);(27,1)]) (Lf [(13,2);(26,1);(28,1)]);Lf [(3,1);(4,1);(26,1)];Lf [(3,1);(13,1);(26,1)];Nd 0 (Lf [(11,1);(27,1)]) (Lf [(26,1);(28,1)]);Lf [(15,2);(26,1)];Lf [(5,2);(26,1)]];
   Never (Lf [(0,1);(1,1);(6,1);(14,1)]);
   Equal [Lf [(5,1);(9,1);(11,1);(26,1)];Nd 6 (Lf [(1,1);(27,1)]) (Lf [(15,1);(26,1);(28,1)]);Nd 6 (Lf [(1,1);(27,1)]) (Lf [(7,2);(26,1);(28,1)]);Lf [(6,1);(11,1);(15,1);(16,1);(26,1)];Lf [(15,2);(26,1)];Lf [(5,2);(26,1)]];
   Never (Lf [(0,1);(1,1);(6,1);(14,1);(15,1)]);
   Never (Lf [(0,1);(1,2);(2,2);(6,2);(12,1);(13,1)]);
   Never (Nd 0 (Lf [(2,1);(4,1);(9,1);(12,1);(17,2);(26,2)]) (Lf [(0,1);(1,4);(2,2);(9,1);(12,2);(17,3);(27,1)]));
   Never (Lf [(0,2);(1,3);(2,2);(5,1);(12,1);(13,1);(14,2)]);
   Never (Nd 0 (Lf [(2,1);(6,1);(12,1);(26,1)]) (Nd 1 (Lf [(1,1);(6,1);(12,1);(28,1)]) (Lf [(0,1);(1,2);(2,1);(12,1);(14,1);(27,1);(29,1)])));
   Never (Lf [(0,2);(1,2);(5,1);(14,1)]);
   Never (Lf [(0,1);(1,2);(2,2);(7,1);(13,1);(15,1)]);
   Never (Nd 7 (Lf [(1,1);(2,1);(17,1);(26,1)]) (Lf [(0,1);(1,2);(3,1);(8,1);(27,1)]));
   Never (Lf [(0,1);(1,2);(2,2);(7,1);(13,1)]);
   Equal [Lf [(4,1);(15,1);(26,1)];Nd 1 (Lf [(1,1);(12,1);(27,1)]) (Lf [(3,1);(14,1);(26,1);(28,1)]);Nd 1 (Lf [(1,1);(12,1);(27,1)]) (Lf [(14,2);(26,1);(28,1)]);Lf [(4,1);(5,1);(26,1)];Lf [(14,1);(15,1);(26,1)];Lf [(3,1);(5,1);(26,1)]];
   Never (Lf [(0,2);(1,2);(5,1);(14,1)]);
   Never (Lf [(0,1);(1,1);(5,1);(17,1)]);
   Equal [Nd 0 (Lf [(2,1);(12,1);(27,1)]) (Lf [(26,1);(28,1)]);Nd 0 (Lf [(2,1);(12,1);(27,1)]) (Nd 1 (Lf [(1,1);(12,1);(29,1)]) (Nd 7 (Lf [(1,1);(2,1);(31,1)]) (Lf [(26,1);(30,1);(32,1)])));Nd 1 (Lf [(1,1);(12,1);(27,1)]) (Lf [(26,1);(28,1)]);Nd 0 (Lf [(2,1);(12,1);(27,1)]) (Nd 7 (Lf [(1,1);(2,1);(29,1)]) (Lf [(26,1);(28,1);(30,1)]));Nd 7 (Lf [(1,1);(2,1);(27,1)]) (Lf [(26,1);(28,1)]);Nd 0 (Lf [(2,1);(12,1);(27,1)]) (Nd 1 (Lf [(1,1);(12,1);(29,1)]) (Lf [(26,1);(28,1);(30,1)]))];
   Never (Lf [(0,1);(1,2);(2,2);(7,1);(13,1)]);
   Never (Lf [(0,1);(1,2);(8,1);(14,1)]);
   Never (Lf [(0,1);(1,2);(2,2);(6,1);(9,1);(13,1);(14,1)]);
   Never (Lf [(0,1);(1,1);(6,1);(15,1)]);
   Never (Lf [(0,1);(1,1);(6,1);(15,1)]);
   Never (Lf [(0,1);(1,1);(6,1);(15,1)]);
   Never (Lf [(0,1);(1,2);(8,1);(14,1)]);
   Never (Lf [(0,1);(1,2);(2,2);(6,2);(12,1);(13,1)]);
   Equal [Lf [(9,1);(11,1);(26,1)];Lf [(1,1);(19,1);(26,1)];Lf [(1,1);(9,1);(26,1)];Lf [(11,1);(19,1);(26,1)];Lf [(26,1)];Lf [(26,1)]];
   Never (Nd 6 (Lf [(1,1);(26,1)]) (Lf [(0,1);(3,1);(5,1);(7,1);(27,1)]));
   Never (Nd 0 (Lf [(11,1);(26,1)]) (Lf [(0,1);(1,1);(5,1);(13,1);(17,1);(27,1)]));
   Equal [Lf [(13,1);(14,1);(26,1)];Lf [(3,1);(4,1);(26,1)];Lf [(13,1);(14,1);(26,1)];Lf [(3,1);(4,1);(26,1)];Lf [(26,1)];Lf [(26,1)]];
   Never (Nd 1 (Lf [(1,2);(5,1);(9,1);(12,1);(19,2);(26,2)]) (Lf [(0,1);(9,1);(12,2);(17,3);(27,1)]));
   Never (Nd 6 (Lf [(1,1);(12,1);(16,1);(26,1)]) (Lf [(0,1);(1,2);(2,2);(3,1);(7,1);(27,1)]));
   Never (Lf [(0,1);(3,1);(5,1);(7,1);(13,1)]);
   Never (Lf [(0,1);(7,1);(13,1)]);
   Never (Lf [(0,1);(1,2);(8,1);(14,1)]);
   Never (Lf [(0,1);(1,2);(8,1);(15,1)]);
   Never (Lf [(0,2);(1,2);(3,1);(14,1);(15,1)]);
   Never (Lf [(0,1);(1,2);(8,1);(15,1)]);
   Never (Lf [(0,1);(1,2);(8,1);(15,1)]);
   Never (Nd 0 (Lf [(4,1);(9,1);(15,1);(26,1)]) (Lf [(0,1);(1,3);(8,1);(9,1);(15,2);(27,1)]));
   Never (Lf [(0,1);(1,2);(8,1);(14,1);(15,1)]);
   Never (Lf [(0,1);(1,1);(8,1);(9,1);(13,1);(15,2)]);
   Never (Lf [(0,1);(1,1);(8,1);(9,1);(13,1);(15,1)]);
   Never (Lf [(0,1);(1,1);(8,1);(9,1);(13,1)]);
   Never (Lf [(0,1);(1,1);(4,1);(6,1);(11,2);(13,1)]);
   Never (Nd 0 (Lf [(4,1);(6,1);(11,1);(13,1);(26,1)]) (Lf [(0,1);(1,2);(11,1);(13,1);(27,1)]));
   Never (Lf [(0,1);(1,1);(2,2);(6,1);(14,1)]);
   Never (Lf [(0,1);(1,1);(6,1);(17,1);(18,1)]);
   Never (Nd 1 (Lf [(5,1);(11,1);(16,1);(26,1)]) (Lf [(0,1);(2,2);(11,1);(16,2);(27,1)]));
   Never (Lf [(0,2);(1,4);(2,1);(4,1);(9,1);(11,1);(13,2)]);
   Never (Lf [(0,1);(1,1);(4,1);(11,1);(12,1);(13,1)]);
   Never (Nd 0 (Lf [(2,1);(4,1);(9,1);(11,1);(12,2);(26,2)]) (Lf [(0,1);(1,4);(2,2);(9,1);(11,2);(12,3);(27,1)]));
   Never (Lf [(0,1);(1,2);(4,1);(8,1);(12,2);(14,1)]);
   Never (Lf [(0,1);(1,1);(2,2);(5,2);(11,2);(12,3);(13,1)]);
   Never (Lf [(0,2);(5,1);(9,1);(11,1);(13,2)]);
   Never (Nd 1 (Lf [(5,1);(9,1);(11,1);(12,2);(26,2)]) (Lf [(0,1);(2,3);(9,1);(11,1);(12,3);(27,1)]));
   Never (Lf [(0,1);(1,1);(2,2);(6,1);(14,1)]);
   Never (Lf [(0,1);(1,1);(2,1);(4,1);(9,1);(11,1);(13,1)]);
   Never (Nd 0 (Lf [(2,1);(6,1);(11,1);(26,1)]) (Lf [(0,1);(1,2);(2,1);(5,1);(11,1);(15,1);(27,1)]));
   Never (Lf [(0,1);(1,1);(2,2);(6,1);(14,1)])].
Definition certs_00_8 : list cert :=
  [Never (Lf [(0,1);(5,1);(16,1)]);
   Never (Lf [(0,1);(1,1);(2,2);(6,1);(14,1);(15,1)]);
   Never (Lf [(0,2);(1,2);(5,1);(13,1)]);
   Never (Nd 0 (Lf [(12,1);(26,1)]) (Nd 1 (Lf [(6,1);(11,1);(28,1)]) (Lf [(0,1);(1,1);(2,1);(11,1);(13,1);(27,1);(29,1)])));
   Never (Lf [(0,1);(1,1);(2,1);(5,1);(11,1);(13,1)]);
   Never (Nd 0 (Lf [(9,1);(14,1);(26,1)]) (Lf [(0,1);(1,2);(2,2);(9,1);(11,2);(16,1);(27,1)]));
   Never (Lf [(0,1);(1,2);(2,2);(6,1);(9,1);(14,1)]);
   Never (Nd 1 (Lf [(1,1);(5,1);(9,1);(13,1);(26,2)]) (Lf [(0,1);(1,2);(2,4);(6,1);(9,1);(13,2);(27,1)]));
   Never (Nd 0 (Lf [(4,1);(9,1);(11,1);(19,1);(26,1)]) (Lf [(0,1);(1,1);(11,2);(16,1);(18,1);(27,1)]));
   Never (Lf [(0,1);(1,2);(2,2);(5,1);(9,1);(11,1);(13,1)]);
   Never (Nd 0 (Lf [(2,1);(12,1);(26,1)]) (Lf [(0,1);(1,1);(5,1);(11,1);(14,1);(27,1)]));
   Never (Lf [(0,2);(1,2);(5,1);(13,1);(14,1)]);
   Never (Lf [(0,2);(1,3);(2,4);(5,1);(9,1);(13,1);(15,2)]);
   Never (Lf [(0,1);(1,1);(2,2);(6,1);(15,1)]);
   Never (Lf [(0,1);(1,2);(2,2);(5,1);(9,1);(11,1);(13,1)]);
   Never (Lf [(0,1);(1,1);(2,2);(6,1);(15,1)]);
   Never (Lf [(0,1);(1,2);(2,2);(6,1);(9,1);(14,1)]);
   Never (Lf [(0,1);(1,1);(6,1);(15,1)]);
   Never (Lf [(0,1);(1,1);(6,1);(15,1)]);
   Never (Lf [(0,1);(1,1);(2,1);(5,1);(11,1);(13,1)]);
   Never (Lf [(0,1);(1,1);(6,1);(15,1)]);
   Never (Lf [(0,2);(1,2);(5,1);(13,1)]);
   Never (Nd 1 (Lf [(1,1);(5,1);(9,1);(11,1);(16,1);(26,1)]) (Lf [(0,1);(1,1);(2,1);(9,1);(11,1);(16,2);(27,1)]));
   Never (Lf [(0,1);(1,1);(4,1);(5,1);(6,1);(14,1)]);
   Never (Nd 0 (Lf [(2,1);(6,1);(11,1);(26,1)]) (Lf [(0,1);(1,2);(2,1);(11,1);(13,1);(27,1)]));
   Never (Lf [(0,1);(1,1);(6,1);(14,1)]);
   Never (Lf [(0,1);(1,1);(2,1);(4,1);(9,1);(11,1);(13,1)]);
   Never (Nd 1 (Lf [(1,1);(9,1);(15,1);(26,2)]) (Lf [(0,1);(9,1);(11,1);(12,3);(27,1)]));
   Never (Lf [(0,1);(1,1);(2,1);(5,1);(9,1);(12,1);(14,1)]);
   Never (Lf [(0,2);(5,1);(9,1);(11,1);(13,2)]);
   Never (Lf [(0,1);(1,1);(2,2);(5,2);(11,2);(12,3);(13,1)]);
   Never (Nd 0 (Lf [(6,1);(11,1);(12,1);(15,1);(26,1)]) (Lf [(0,1);(1,3);(11,2);(12,3);(15,1);(17,1);(27,1)]));
   Never (Lf [(0,1);(1,1);(4,1);(12,1);(14,1)]);
   Never (Lf [(0,1);(1,1);(4,1);(11,1);(12,1);(13,1)]);
   Never (Lf [(0,2);(1,4);(2,1);(4,1);(9,1);(11,1);(13,2)]);
   Never (Lf [(0,1);(1,2);(2,2);(6,2);(11,1);(15,1)]);
   Never (Lf [(0,1);(1,1);(4,1);(5,1);(6,1);(14,1)]);
   Never (Lf [(0,1);(1,2);(2,2);(6,1);(9,1);(15,1)]);
   Never (Lf [(0,1);(1,1);(6,1);(14,1)]);
   Never (Lf [(0,1);(1,1);(4,1);(6,1);(11,2);(13,1)]);
   Never (Lf [(0,1);(1,1);(2,2);(7,1);(9,1);(13,1)]);
   Never (Lf [(0,1);(5,1);(17,1)]);
   Never (Lf [(0,1);(1,1);(2,2);(6,1);(13,1);(14,1)]);
   Equal [Nd 5 (Lf [(2,1);(12,1);(27,1)]) (Lf [(9,2);(26,1);(28,1)]);Nd 1 (Lf [(9,1);(12,1);(27,1)]) (Nd 7 (Lf [(2,1);(9,1);(29,1)]) (Lf [(2,2);(12,2);(26,1);(28,1);(30,1)]));Nd 1 (Lf [(9,1);(12,1);(27,1)]) (Lf [(26,1);(28,1)]);Nd 1 (Lf [(9,1);(12,1);(27,1)]) (Nd 2 (Nd 3 (Nd 4 (Nd 5 (Lf [(2,1);(12,1);(32,1)]) (Nd 7 (Lf [(2,1);(9,1);(34,1)]) (Lf [(26,1);(33,1);(35,1)]))) (Lf [(2,1);(8,1);(12,1);(29,1);(32,1)])) (Lf [(8,1);(26,1);(30,1)])) (Lf [(4,1);(26,1);(30,1)]));Nd 7 (Lf [(2,1);(9,1);(27,1)]) (Lf [(26,1);(28,1)]);Nd 1 (Lf [(9,1);(12,1);(27,1)]) (Nd 5 (Lf [(2,1);(12,1);(29,1)]) (Lf [(26,1);(28,1);(30,1)]))];
   Never (Lf [(0,1);(8,1);(14,1)]);
   Never (Lf [(0,1);(1,1);(8,1);(9,1);(13,1)]);
   Never (Nd 3 (Lf [(17,1);(26,1)]) (Lf [(0,1);(18,1);(27,1)]));
   Never (Lf [(0,1);(1,1);(6,1);(13,1);(14,1)]);
   Equal [Lf [(4,1);(26,1)];Lf [(14,1);(26,1)];Lf [(14,2);(26,1)];Lf [(4,2);(26,1)];Lf [(8,2);(26,1)];Lf [(18,2);(26,1)]];
   Never (Lf [(0,1);(3,1);(5,1);(7,1);(13,1)]);
   Never (Nd 1 (Lf [(7,1);(12,1);(26,1)]) (Lf [(0,1);(2,1);(3,1);(12,1);(13,1);(27,1)]));
   Never (Nd 1 (Lf [(6,1);(19,1);(26,1)]) (Lf [(0,1);(17,1);(18,2);(27,1)]));
   Never (Lf [(0,1);(8,1);(14,1)]);
   Never (Nd 3 (Lf [(8,1);(14,1);(26,1)]) (Lf [(0,1);(7,1);(14,1);(27,1)]));
   Never (Lf [(0,1);(1,1);(2,2);(6,1);(13,1);(15,1)]);
   Never (Lf [(0,1);(5,1);(17,1)]);
   Never (Lf [(0,1);(1,1);(2,2);(6,1);(13,1)]);
   Equal [Lf [(6,2);(26,1)];Lf [(2,2);(12,2);(26,1)];Lf [(5,2);(15,1);(26,1)];Lf [(4,2);(15,1);(26,1)];Lf [(4,1);(15,2);(26,1)];Lf [(4,1);(5,2);(26,1)]];
   Never (Lf [(0,1);(8,1);(14,1)]);
   Never (Lf [(0,1);(1,1);(6,1);(13,1);(15,1)]);
   Equal [Lf [(5,1);(26,1)];Lf [(15,1);(26,1)];Lf [(7,2);(26,1)];Lf [(17,2);(26,1)];Lf [(15,2);(26,1)];Lf [(5,2);(26,1)]];
   Never (Lf [(0,1);(1,1);(6,1);(13,1)]);
   Equal [Lf [(26,1)];Lf [(26,1)];Lf [(14,2);(26,1)];Lf [(4,2);(26,1)];Lf [(15,2);(26,1)];Lf [(5,2);(26,1)]];
   Never (Lf [(0,1);(5,1);(17,1)])].
Definition certs_00_9 : list cert :=
  [Equal [Lf [(13,2);(26,1)];Lf [(3,2);(26,1)];Lf [(5,1);(15,1);(26,1)];Nd 7 (Lf [(2,1);(27,1)]) (Lf [(4,2);(26,1);(28,1)]);Nd 7 (Lf [(2,1);(27,1)]) (Lf [(26,1);(28,1)]);Lf [(4,1);(5,1);(26,1)]];
   Equal [Lf [(2,2);(6,2);(26,1)];Lf [(16,2);(26,1)];Lf [(5,1);(26,1)];Nd 2 (Lf [(2,1);(16,1);(27,1)]) (Lf [(26,1);(28,1)]);Nd 2 (Lf [(2,1);(16,1);(27,1)]) (Lf [(15,1);(26,1);(28,1)]);Lf [(4,1);(5,1);(26,1)]];
   Never (Lf [(0,1);(8,1);(14,1)]);
   Never (Lf [(0,1);(8,1);(14,1);(15,1)]);
   Equal [Nd 1 (Lf [(9,1);(19,1);(27,1)]) (Nd 5 (Lf [(2,1);(19,1);(29,1)]) (Lf [(2,2);(9,2);(26,1);(28,1);(30,1)]));Nd 11 (Lf [(2,1);(9,1);(27,1)]) (Lf [(19,2);(26,1);(28,1)]);Nd 1 (Lf [(9,1);(19,1);(27,1)]) (Nd 11 (Lf [(2,1);(9,1);(29,1)]) (Lf [(26,1);(28,1);(30,1)]));Nd 5 (Lf [(2,1);(19,1);(27,1)]) (Lf [(26,1);(28,1)]);Nd 1 (Lf [(9,1);(19,1);(27,1)]) (Nd 2 (Nd 3 (Nd 4 (Nd 5 (Lf [(2,1);(19,1);(32,1)]) (Nd 11 (Lf [(2,1);(9,1);(34,1)]) (Lf [(26,1);(33,1);(35,1)]))) (Lf [(2,1);(16,1);(29,1);(32,1)])) (Lf [(8,1);(26,1);(30,1)])) (Lf [(4,1);(26,1);(30,1)]));Nd 1 (Lf [(9,1);(19,1);(27,1)]) (Lf [(26,1);(28,1)])];
   Never (Nd 7 (Lf [(2,1);(17,1);(26,1)]) (Lf [(0,1);(3,1);(8,1);(13,1);(27,1)]));
   Equal [Lf [(2,2);(6,2);(26,1)];Lf [(16,2);(26,1)];Lf [(5,1);(14,2);(26,1)];Lf [(4,2);(5,1);(26,1)];Lf [(4,2);(14,1);(26,1)];Lf [(5,2);(14,1);(26,1)]];
   Equal [Lf [(13,2);(26,1)];Lf [(3,2);(26,1)];Nd 1 (Lf [(12,1);(27,1)]) (Lf [(14,2);(26,1);(28,1)]);Lf [(4,1);(5,1);(26,1)];Lf [(4,1);(14,1);(26,1)];Nd 1 (Lf [(12,1);(27,1)]) (Lf [(26,1);(28,1)])];
   Never (Lf [(0,2);(5,1);(14,1)]);
   Equal [Lf [(26,1)];Lf [(26,1)];Lf [(26,1)];Lf [(26,1)];Lf [(26,1)];Lf [(26,1)]];
   Never (Lf [(0,1);(1,1);(6,1);(13,1)]);
   Never (Lf [(0,1);(7,1);(14,1)]);
   Never (Lf [(0,1);(1,1);(8,1);(9,1);(13,1);(14,1)]);
   Never (Nd 2 (Lf [(2,1);(12,1);(17,1);(26,1)]) (Lf [(0,1);(17,1);(27,1)]));
   Equal [Lf [(6,2);(26,1)];Lf [(2,2);(12,2);(26,1)];Nd 1 (Lf [(6,1);(12,1);(27,1)]) (Lf [(14,2);(26,1);(28,1)]);Lf [(4,1);(5,1);(26,1)];Lf [(4,1);(26,1)];Nd 1 (Lf [(6,1);(12,1);(27,1)]) (Lf [(14,1);(26,1);(28,1)])];
   Never (Lf [(0,1);(1,1);(2,2);(6,1);(13,1)]);
   Never (Lf [(0,2);(5,1);(14,1)]);
   Never (Lf [(0,1);(7,1);(14,1)]);
   Never (Lf [(0,1);(7,1);(15,1)]);
   Never (Lf [(0,1);(7,1);(15,1)]);
   Never (Lf [(0,2);(5,1);(14,1);(15,1)]);
   Never (Lf [(0,1);(7,1);(15,1)]);
   Never (Lf [(0,1);(3,1);(5,1);(7,1);(13,1)]);
   Never (Lf [(0,1);(8,1);(15,1)]);
   Never (Lf [(0,1);(8,1);(15,1)]);
   Never (Lf [(0,1);(7,1);(14,1)]);
   Never (Lf [(0,1);(1,1);(8,1);(9,1);(13,1)]);
   Never (Nd 3 (Lf [(8,1);(15,1);(26,1)]) (Lf [(0,1);(7,1);(15,1);(27,1)]));
   Never (Lf [(0,1);(7,1);(14,1);(15,1)]);
   Never (Lf [(0,1);(1,1);(2,2);(7,1);(9,1);(13,1);(15,1)]);
   Never (Lf [(0,2);(5,1);(14,1)]);
   Never (Lf [(0,1);(1,1);(2,2);(7,1);(9,1);(13,1)]);
   Never (Lf [(0,1);(1,2);(2,2);(5,1);(9,1);(11,1);(13,1)]);
   Never (Nd 1 (Lf [(1,1);(5,1);(9,1);(13,1);(26,2)]) (Lf [(0,1);(1,1);(2,2);(11,1);(13,1);(27,1)]));
   Never (Lf [(0,2);(1,2);(5,1);(13,1);(14,1)]);
   Never (Lf [(0,1);(7,1);(14,1)]);
   Never (Nd 3 (Lf [(1,1);(2,1);(11,1);(12,1);(19,1);(26,1)]) (Lf [(0,1);(1,1);(19,1);(27,1)]));
   Never (Lf [(0,1);(1,1);(8,1);(9,1);(13,1)]);
   Never (Lf [(0,1);(1,2);(8,1);(13,1)]);
   Never (Nd 3 (Lf [(11,1);(12,1);(26,1)]) (Lf [(0,1);(1,1);(12,1);(17,1);(27,1)]));
   Never (Lf [(0,1);(3,1);(9,1);(12,1);(14,1)]);
   Never (Nd 3 (Lf [(1,1);(2,1);(11,1);(26,1)]) (Lf [(0,1);(7,1);(13,1);(27,1)]));
   Never (Lf [(0,1);(2,1);(3,1);(9,1);(11,1);(13,1)]);
   Never (Nd 1 (Lf [(1,1);(5,1);(11,1);(16,1);(26,1)]) (Lf [(0,1);(1,2);(2,2);(11,2);(16,1);(27,1)]));
   Never (Nd 1 (Lf [(1,1);(7,1);(11,1);(26,1)]) (Lf [(0,1);(1,1);(2,1);(3,1);(11,1);(14,1);(27,1)]));
   Never (Lf [(0,1);(3,1);(5,1);(7,1);(14,1)]);
   Never (Lf [(0,2);(1,2);(2,4);(5,1);(9,1);(11,1);(13,2)]);
   Never (Nd 1 (Lf [(5,1);(9,1);(11,1);(12,2);(26,2)]) (Lf [(0,1);(2,3);(9,1);(11,2);(12,3);(27,1)]));
   Never (Lf [(0,1);(1,1);(2,1);(5,1);(11,1);(12,1);(13,1)]);
   Never (Lf [(0,1);(1,1);(2,2);(5,1);(6,1);(12,2);(14,1)]);
   Never (Lf [(0,1);(1,1);(2,1);(5,1);(9,1);(11,1);(13,1)]);
   Never (Nd 1 (Lf [(7,1);(11,1);(26,1)]) (Lf [(0,1);(2,1);(3,1);(11,1);(15,1);(27,1)]));
   Never (Lf [(0,2);(1,2);(5,1);(13,1)]);
   Never (Lf [(0,1);(7,1);(14,1)]);
   Never (Lf [(0,1);(7,1);(14,1);(15,1)]);
   Never (Lf [(0,1);(5,1);(19,1)]);
   Never (Nd 0 (Lf [(2,1);(18,1);(26,1)]) (Nd 1 (Lf [(12,1);(28,1)]) (Nd 3 (Lf [(11,1);(30,1)]) (Lf [(0,1);(11,1);(29,1);(31,1)]))));
   Never (Nd 1 (Lf [(1,1);(9,1);(14,1);(26,2)]) (Lf [(0,1);(2,1);(9,1);(11,2);(16,1);(27,1)]));
   Never (Lf [(0,1);(3,1);(11,1);(13,1)]);
   Never (Lf [(0,1);(1,1);(2,2);(7,1);(9,1);(14,1)]);
   Never (Lf [(0,1);(1,2);(2,2);(7,1);(15,1)]);
   Never (Lf [(0,1);(3,1);(11,1);(13,1)]);
   Never (Lf [(0,1);(1,2);(2,2);(7,1);(15,1)]);
   Never (Lf [(0,1);(1,2);(2,2);(7,1);(15,1)])].
Definition certs_00_10 : list cert :=
  [Never (Lf [(0,1);(3,1);(5,1);(7,1);(14,1)]);
   Never (Nd 3 (Lf [(2,1);(11,1);(26,1)]) (Lf [(0,1);(1,1);(16,1);(27,1)]));
   Never (Nd 1 (Lf [(7,1);(11,1);(26,1)]) (Lf [(0,1);(2,1);(11,1);(13,1);(27,1)]));
   Never (Lf [(0,2);(1,2);(5,1);(13,1)]);
   Never (Lf [(0,1);(1,2);(2,2);(7,1);(14,1)]);
   Never (Lf [(0,1);(1,1);(2,1);(5,1);(9,1);(11,1);(13,1)]);
   Never (Nd 1 (Lf [(1,1);(5,1);(11,1);(12,2);(15,1);(26,2)]) (Lf [(0,1);(1,2);(2,4);(11,2);(12,3);(15,2);(27,1)]));
   Never (Lf [(0,1);(1,1);(2,1);(5,1);(11,1);(12,1);(13,1)]);
   Never (Lf [(0,1);(1,1);(2,1);(5,1);(12,1);(14,1)]);
   Never (Lf [(0,2);(1,2);(2,4);(5,1);(9,1);(11,1);(13,2)]);
   Never (Lf [(0,1);(7,1);(15,1)]);
   Never (Lf [(0,1);(7,1);(15,1)]);
   Never (Lf [(0,1);(7,1);(15,1)]);
   Never (Lf [(0,1);(2,1);(3,1);(9,1);(11,1);(13,1)]);
   Never (Lf [(0,1);(1,1);(2,2);(7,1);(9,1);(14,1)]);
   Never (Nd 3 (Lf [(1,1);(2,1);(11,1);(12,1);(26,1)]) (Lf [(0,1);(1,1);(12,1);(27,1)]));
   Never (Lf [(0,1);(1,2);(2,2);(7,1);(14,1)]);
   Never (Lf [(0,1);(1,2);(8,1);(13,1)]);
   Never (Lf [(0,1);(1,1);(8,1);(9,1);(13,1)]);
   Never (Lf [(0,1);(1,1);(2,2);(7,2);(11,1);(15,1)]);
   Never (Lf [(0,1);(1,1);(2,2);(7,1);(9,1);(15,1)]);
   Never (Lf [(0,1);(1,3);(2,2);(5,2);(11,3);(13,2);(15,1)]);
   Never (Lf [(0,1);(1,2);(2,2);(7,1);(14,1)]);
   Never (Lf [(0,1);(1,2);(2,2);(5,1);(9,1);(11,1);(13,1)]);
   Never (Lf [(0,1);(1,1);(2,2);(7,1);(9,1);(13,1)]);
   Never (Nd 3 (Lf [(8,1);(13,1);(26,1)]) (Lf [(0,1);(1,1);(11,1);(12,1);(27,1)]));
   Never (Lf [(0,1);(1,2);(8,1);(14,1)]);
   Never (Nd 0 (Lf [(2,1);(6,1);(16,1);(26,1)]) (Lf [(0,1);(1,3);(2,1);(11,1);(16,2);(27,1)]));
   Never (Lf [(0,1);(7,1);(13,1)]);
   Never (Nd 3 (Lf [(12,1);(26,1)]) (Lf [(0,1);(1,1);(11,1);(12,1);(16,1);(27,1)]));
   Never (Lf [(0,1);(3,1);(11,1);(12,1);(13,1)]);
   Never (Lf [(0,1);(1,1);(8,1);(9,1);(14,1)]);
   Equal [Nd 0 (Lf [(8,1);(11,1);(27,1)]) (Lf [(13,2);(26,1);(28,1)]);Lf [(3,1);(4,1);(26,1)];Lf [(3,1);(26,1)];Nd 0 (Lf [(8,1);(11,1);(27,1)]) (Lf [(13,1);(26,1);(28,1)]);Lf [(8,2);(26,1)];Lf [(1,2);(11,2);(26,1)]];
   Never (Lf [(0,1);(1,1);(4,1);(11,1);(13,1)]);
   Never (Nd 3 (Lf [(16,1);(26,1)]) (Lf [(0,1);(1,1);(11,1);(27,1)]));
   Never (Lf [(0,1);(1,1);(8,1);(9,1);(14,1)]);
   Never (Lf [(0,1);(1,2);(2,2);(6,2);(12,1);(13,1)]);
   Never (Nd 0 (Lf [(2,1);(6,1);(12,1);(26,1)]) (Lf [(0,1);(1,4);(2,2);(9,1);(11,1);(12,3);(27,1)]));
   Never (Lf [(0,1);(1,1);(2,2);(6,1);(13,1)]);
   Never (Lf [(0,1);(1,2);(2,1);(4,1);(9,1);(12,1);(14,1)]);
   Never (Nd 0 (Lf [(4,1);(9,1);(13,1);(26,1)]) (Lf [(0,1);(1,3);(8,1);(9,1);(13,2);(27,1)]));
   Never (Nd 3 (Lf [(19,1);(26,1)]) (Lf [(0,1);(11,1);(27,1)]));
   Never (Lf [(0,1);(1,1);(4,1);(9,1);(11,1);(13,1)]);
   Equal [Lf [(26,1)];Lf [(26,1)];Lf [(3,1);(14,2);(26,1)];Lf [(3,1);(4,2);(26,1)];Lf [(1,2);(8,2);(26,1)];Lf [(11,2);(18,2);(26,1)]];
   Never (Lf [(0,1);(1,2);(2,2);(7,1);(13,1)]);
   Never (Nd 7 (Lf [(1,1);(2,1);(26,1)]) (Lf [(0,1);(3,1);(4,1);(8,1);(27,1)]));
   Never (Lf [(0,1);(1,2);(8,1);(14,1)]);
   Never (Lf [(0,1);(1,2);(8,1);(14,1);(15,1)]);
   Never (Nd 0 (Lf [(2,1);(6,1);(19,1);(26,1)]) (Lf [(0,1);(1,1);(2,1);(9,1);(11,1);(16,2);(27,1)]));
   Never (Nd 0 (Lf [(17,1);(26,1)]) (Nd 1 (Lf [(12,1);(28,1)]) (Nd 2 (Nd 3 (Nd 7 (Lf [(2,1);(32,1)]) (Lf [(1,2);(8,1);(13,1);(31,1);(33,1)])) (Lf [(0,1);(11,1);(12,1);(32,1)])) (Lf [(0,1);(1,1);(13,1);(30,1)]))));
   Never (Lf [(0,1);(8,1);(14,1)]);
   Never (Lf [(0,1);(1,2);(2,2);(7,1);(13,1)]);
   Never (Lf [(0,1);(1,2);(8,1);(15,1)]);
   Never (Lf [(0,1);(1,1);(4,1);(9,1);(11,1);(13,1)]);
   Never (Lf [(0,1);(1,2);(8,1);(15,1)]);
   Never (Lf [(0,1);(1,1);(8,1);(9,1);(14,1)]);
   Never (Nd 0 (Lf [(9,1);(15,1);(26,1)]) (Lf [(0,1);(1,1);(2,2);(9,1);(11,1);(12,3);(27,1)]));
   Never (Lf [(0,1);(1,1);(2,2);(6,1);(13,1)]);
   Never (Lf [(0,1);(1,1);(2,1);(4,1);(9,1);(12,1);(14,1)]);
   Never (Lf [(0,1);(1,2);(2,2);(6,2);(12,1);(13,1)]);
   Never (Lf [(0,1);(8,1);(15,1)]);
   Never (Lf [(0,1);(8,1);(15,1)]);
   Never (Lf [(0,1);(1,1);(4,1);(11,1);(13,1)]);
   Never (Lf [(0,1);(8,1);(15,1)])].
Definition certs_00_11 : list cert :=
  [Never (Nd 3 (Lf [(1,1);(2,1);(12,1);(19,1);(26,1)]) (Lf [(0,1);(1,1);(11,1);(12,1);(19,1);(27,1)]));
   Never (Lf [(0,1);(3,1);(11,1);(12,1);(13,1)]);
   Never (Lf [(0,1);(3,1);(12,1);(14,1)]);
   Never (Lf [(0,1);(7,1);(13,1)]);
   Never (Lf [(0,1);(1,1);(8,1);(9,1);(15,1)]);
   Never (Lf [(0,1);(1,1);(8,1);(9,1);(15,1)]);
   Never (Lf [(0,1);(8,1);(14,1)]);
   Never (Lf [(0,1);(1,1);(2,2);(7,1);(9,1);(13,1)]);
   Never (Nd 0 (Lf [(2,1);(6,1);(17,1);(26,1)]) (Lf [(0,1);(1,4);(2,2);(9,1);(12,1);(17,3);(27,1)]));
   Never (Lf [(0,1);(1,2);(8,1);(13,1)]);
   Never (Nd 3 (Lf [(8,1);(14,1);(26,1)]) (Lf [(0,1);(1,1);(12,1);(27,1)]));
   Never (Lf [(0,1);(1,1);(2,2);(7,1);(9,1);(14,1)]);
   Never (Nd 3 (Lf [(12,1);(17,1);(26,1)]) (Lf [(0,1);(1,1);(19,1);(27,1)]));
   Never (Lf [(0,1);(7,1);(13,1)]);
   Never (Lf [(0,1);(3,1);(5,1);(7,1);(13,1)]);
   Never (Nd 1 (Lf [(1,1);(5,1);(9,1);(14,1);(26,2)]) (Lf [(0,1);(1,1);(2,2);(9,1);(12,1);(14,1);(27,1)]));
   Never (Lf [(0,1);(1,2);(2,2);(6,1);(9,1);(14,1)]);
   Never (Lf [(0,1);(8,1);(13,1)]);
   Equal [Nd 0 (Lf [(2,1);(9,1);(11,1);(27,1)]) (Nd 1 (Lf [(1,1);(9,1);(11,1);(29,1)]) (Lf [(26,1);(28,1);(30,1)]));Nd 0 (Lf [(2,1);(9,1);(11,1);(27,1)]) (Nd 1 (Lf [(1,1);(9,1);(11,1);(29,1)]) (Nd 2 (Nd 3 (Nd 4 (Nd 5 (Lf [(1,1);(2,1);(11,1);(34,1)]) (Nd 6 (Lf [(1,1);(2,1);(9,1);(36,1)]) (Nd 7 (Lf [(2,1);(9,1);(11,1);(38,1)]) (Lf [(1,2);(2,1);(11,1);(26,1);(37,1);(39,1)])))) (Lf [(1,2);(2,1);(8,2);(11,1);(26,1);(34,1)])) (Lf [(3,1);(26,1);(33,1)])) (Lf [(1,1);(4,1);(9,1);(26,1);(31,2)])));Lf [(1,1);(9,1);(26,1)];Lf [(2,1);(11,1);(26,1)];Nd 0 (Lf [(2,1);(9,1);(11,1);(27,1)]) (Nd 1 (Lf [(1,1);(9,1);(11,1);(29,1)]) (Nd 2 (Nd 3 (Nd 4 (Nd 5 (Lf [(1,1);(2,1);(11,1);(34,1)]) (Nd 6 (Lf [(1,1);(2,1);(9,1);(36,1)]) (Nd 7 (Lf [(2,1);(9,1);(11,1);(38,1)]) (Lf [(26,1);(37,1);(39,1)])))) (Lf [(8,2);(26,1);(34,1)])) (Lf [(2,1);(3,1);(9,2);(11,1);(26,1);(33,1)])) (Lf [(4,1);(9,2);(26,1);(31,2)])));Nd 0 (Lf [(2,1);(9,1);(11,1);(27,1)]) (Nd 1 (Lf [(1,1);(9,1);(11,1);(29,1)]) (Lf [(1,2);(2,1);(11,1);(26,1);(28,1);(30,1)]))];
   Never (Lf [(0,1);(1,1);(2,2);(6,1);(13,1);(14,1)]);
   Never (Lf [(0,1);(5,1);(16,1)]);
   Never (Lf [(0,1);(1,1);(2,2);(7,1);(9,1);(14,1)]);
   Never (Nd 1 (Lf [(5,1);(9,1);(12,1);(17,2);(26,2)]) (Lf [(0,1);(2,3);(9,1);(12,1);(17,3);(27,1)]));
   Never (Lf [(0,1);(1,1);(6,1);(11,1);(16,1);(18,1)]);
   Never (Lf [(0,1);(1,1);(2,2);(6,1);(13,1)]);
   Never (Nd 0 (Lf [(4,1);(9,1);(14,1);(26,1)]) (Lf [(0,1);(1,2);(2,1);(9,1);(12,1);(14,1);(27,1)]));
   Never (Lf [(0,1);(1,1);(8,1);(9,1);(14,1)]);
   Never (Lf [(0,1);(1,1);(6,1);(13,1)]);
   Equal [Lf [(26,1)];Lf [(26,1)];Nd 1 (Lf [(9,1);(11,1);(27,1)]) (Lf [(1,1);(2,2);(9,1);(26,1);(28,1)]);Nd 7 (Lf [(1,1);(19,1);(27,1)]) (Lf [(2,2);(11,1);(19,1);(26,1);(28,1)]);Nd 7 (Lf [(9,1);(11,1);(27,1)]) (Lf [(1,1);(2,2);(9,1);(26,1);(28,1)]);Nd 1 (Lf [(1,1);(19,1);(27,1)]) (Lf [(2,2);(11,1);(19,1);(26,1);(28,1)])];
   Never (Lf [(0,2);(1,2);(5,1);(13,1)]);
   Never (Lf [(0,1);(7,1);(13,1);(14,1)]);
   Never (Lf [(0,1);(1,1);(8,1);(9,1);(14,1)]);
   Never (Lf [(0,1);(1,2);(2,2);(7,1);(13,1)]);
   Equal [Nd 0 (Lf [(2,1);(12,1);(27,1)]) (Lf [(26,1);(28,1)]);Nd 6 (Lf [(9,1);(27,1)]) (Lf [(1,1);(11,1);(26,1);(28,1)]);Nd 6 (Lf [(9,1);(27,1)]) (Lf [(26,1);(28,1)]);Nd 0 (Lf [(2,1);(12,1);(27,1)]) (Lf [(1,1);(11,1);(26,1);(28,1)]);Lf [(1,1);(2,2);(9,1);(26,1)];Lf [(1,1);(11,1);(12,2);(26,1)]];
   Never (Lf [(0,1);(1,2);(8,1);(13,1);(14,1)]);
   Never (Lf [(0,1);(1,2);(2,2);(6,1);(9,1);(14,1)]);
   Never (Nd 1 (Lf [(1,1);(5,1);(9,1);(15,1);(26,2)]) (Lf [(0,1);(1,2);(2,4);(6,1);(9,1);(15,2);(27,1)]));
   Never (Lf [(0,1);(1,2);(2,2);(7,1);(13,1);(15,1)]);
   Never (Lf [(0,1);(1,1);(2,2);(7,1);(9,1);(14,1);(15,1)]);
   Never (Lf [(0,1);(1,2);(2,2);(7,1);(13,1)]);
   Never (Nd 0 (Lf [(4,1);(9,1);(15,1);(26,1)]) (Lf [(0,1);(1,3);(8,1);(9,1);(15,2);(27,1)]));
   Never (Lf [(0,1);(1,1);(6,1);(13,1);(15,1)]);
   Never (Lf [(0,2);(1,2);(5,1);(13,1)]);
   Never (Lf [(0,1);(1,2);(2,2);(6,1);(9,1);(14,1);(15,1)]);
   Never (Lf [(0,1);(1,1);(6,1);(13,1)]);
   Never (Lf [(0,1);(1,2);(2,2);(6,1);(9,1);(15,1)]);
   Never (Lf [(0,1);(1,2);(2,2);(6,1);(9,1);(15,1)]);
   Never (Lf [(0,1);(1,1);(2,2);(6,1);(13,1)]);
   Never (Lf [(0,1);(1,2);(2,2);(6,1);(9,1);(15,1)]);
   Never (Lf [(0,1);(1,1);(2,2);(7,1);(9,1);(14,1)]);
   Never (Nd 3 (Lf [(8,1);(15,1);(26,1)]) (Lf [(0,1);(7,1);(15,1);(27,1)]));
   Never (Lf [(0,1);(1,1);(8,1);(9,1);(14,1);(15,2)]);
   Never (Lf [(0,1);(8,1);(13,1);(15,1)]);
   Never (Lf [(0,1);(1,1);(8,1);(9,1);(14,1);(15,1)]);
   Never (Lf [(0,1);(8,1);(13,1)]);
   Never (Lf [(0,1);(1,1);(2,2);(7,1);(9,1);(15,1)]);
   Never (Lf [(0,1);(1,1);(2,2);(7,1);(9,1);(15,1)]);
   Never (Lf [(0,1);(3,1);(5,1);(7,1);(13,1)]);
   Never (Lf [(0,1);(7,1);(13,1)]);
   Never (Lf [(0,1);(1,1);(8,1);(9,1);(14,1)]);
   Never (Lf [(0,1);(1,1);(8,1);(9,1);(15,1)]);
   Never (Lf [(0,1);(1,1);(8,1);(9,1);(15,1)]);
   Never (Lf [(0,1);(1,2);(8,1);(13,1)]);
   Never (Lf [(0,1);(1,2);(2,2);(6,1);(9,1);(14,1)])].
Definition certs_00 : list cert := certs_00_0 ++ certs_00_1 ++ certs_00_2 ++ certs_00_3 ++ certs_00_4 ++ certs_00_5 ++ certs_00_6 ++ certs_00_7 ++ certs_00_8 ++ certs_00_9 ++ certs_00_10 ++ certs_00_11.
Definition certs_01_0 : list cert :=
  [Never (Lf [(2,1);(3,1);(12,1);(13,1);(17,2)]);
   Never (Nd 0 (Lf [(8,1);(12,1);(26,1)]) (Nd 4 (Lf [(1,1);(12,1);(28,1)]) (Lf [(1,2);(2,1);(11,1);(12,1);(14,1);(27,1);(29,1)])));
   Never (Lf [(1,1);(3,1);(4,1);(9,1);(13,1)]);
   Never (Lf [(1,1);(9,1);(13,1)]);
   Never (Lf [(1,1);(5,1);(12,1);(13,1);(17,2)]);
   Never (Nd 3 (Lf [(12,1);(26,1)]) (Lf [(1,1);(11,1);(12,1);(14,1);(16,2);(27,1)]));
   Never (Lf [(0,1);(3,1);(5,1);(7,1);(13,1)]);
   Never (Lf [(0,1);(7,1);(13,1)]);
   Never (Lf [(3,1);(4,1);(9,2);(14,1)]);
   Never (Nd 1 (Lf [(1,1);(9,1);(11,1);(26,1)]) (Lf [(15,1);(16,2);(27,1)]));
   Never (Lf [(0,1);(5,1);(16,1)]);
   Never (Lf [(4,1);(13,1)]);
   Never (Lf [(1,1);(4,1);(9,1);(14,1)]);
   Never (Lf [(0,1);(8,1);(13,1)]);
   Never (Lf [(4,1);(13,1);(17,1);(18,1)]);
   Never (Nd 0 (Lf [(2,1);(6,1);(18,1);(26,1)]) (Nd 1 (Lf [(6,1);(12,1);(28,1)]) (Lf [(2,2);(12,2);(14,1);(27,1);(29,1)])));
   Never (Lf [(1,1);(2,2);(4,1);(5,1);(9,1);(13,1)]);
   Never (Lf [(0,1);(5,1);(14,1);(16,1);(18,1)]);
   Never (Lf [(1,1);(2,2);(9,1);(13,1)]);
   Never (Nd 4 (Lf [(1,1);(16,1);(26,1)]) (Lf [(2,1);(8,1);(11,1);(15,1);(16,1);(27,1)]));
   Never (Lf [(5,1);(13,1)]);
   Never (Lf [(0,2);(1,2);(5,1);(13,1)]);
   Never (Lf [(1,1);(2,2);(5,1);(9,1);(14,1)]);
   Never (Lf [(1,1);(4,1);(5,1);(9,1);(13,1)]);
   Never (Nd 0 (Lf [(2,1);(6,1);(17,1);(26,1)]) (Lf [(15,1);(16,2);(27,1)]));
   Never (Lf [(3,1);(13,1)]);
   Never (Lf [(7,1);(8,1);(14,1)]);
   Never (Lf [(1,1);(2,2);(3,1);(5,1);(9,1);(13,1)]);
   Never (Lf [(1,1);(2,2);(3,1);(5,1);(9,1);(13,1)]);
   Never (Lf [(1,1);(2,2);(5,1);(9,1);(15,1)]);
   Never (Lf [(3,1);(13,1)]);
   Never (Lf [(1,2);(2,2);(4,1);(5,1);(9,2);(14,1)]);
   Never (Lf [(1,1);(4,1);(5,1);(9,1);(13,1)]);
   Never (Lf [(1,1);(4,1);(9,1);(15,1)]);
   Never (Lf [(0,2);(1,2);(5,1);(13,1)]);
   Never (Lf [(5,1);(13,1)]);
   Never (Lf [(3,1);(4,1);(9,2);(14,1)]);
   Never (Lf [(1,1);(2,2);(9,1);(13,1)]);
   Never (Lf [(1,2);(2,2);(4,1);(5,1);(9,2);(15,1)]);
   Never (Lf [(1,1);(2,2);(4,1);(5,1);(9,1);(13,1)]);
   Never (Lf [(1,1);(4,1);(9,1);(14,1)]);
   Never (Lf [(0,1);(2,1);(6,1);(12,1);(13,1);(14,1)]);
   Never (Lf [(0,1);(8,1);(13,1)]);
   Never (Lf [(7,1);(8,1);(15,1)]);
   Never (Lf [(4,1);(13,1)]);
   Never (Lf [(2,1);(3,1);(9,2);(11,1);(15,1)]);
   Never (Lf [(2,2);(3,1);(5,1);(9,2);(14,1)]);
   Never (Lf [(2,2);(3,1);(5,1);(9,2);(15,1)]);
   Never (Lf [(0,1);(7,1);(13,1)]);
   Never (Lf [(0,1);(3,1);(5,1);(7,1);(13,1)]);
   Never (Lf [(1,1);(2,2);(5,1);(9,1);(14,1)]);
   Never (Lf [(1,1);(4,1);(5,1);(9,1);(13,1);(14,1)]);
   Never (Lf [(1,1);(9,1);(13,1)]);
   Never (Lf [(1,1);(3,1);(4,1);(9,1);(13,1)]);
   Never (Lf [(3,1);(8,1);(9,1);(12,1);(14,1)]);
   Never (Lf [(1,2);(2,2);(3,1);(5,1);(13,2);(14,1)]);
   Never (Lf [(2,1);(12,1);(14,1);(16,1)]);
   Never (Nd 4 (Lf [(11,1);(12,1);(26,1)]) (Lf [(2,1);(12,1);(13,1);(17,1);(27,1)]));
   Never (Lf [(2,1);(3,1);(9,2);(12,1);(13,1)]);
   Never (Lf [(2,2);(3,1);(5,1);(9,2);(13,1)]);
   Never (Lf [(1,1);(2,1);(15,1);(16,1)]);
   Never (Lf [(3,1);(5,1);(13,1)]);
   Never (Lf [(0,1);(3,1);(12,1);(14,1)]);
   Never (Lf [(0,1);(7,1);(13,1)])].
Definition certs_01_1 : list cert :=
  [Never (Nd 0 (Lf [(8,1);(11,1);(26,1)]) (Nd 4 (Lf [(1,1);(11,1);(28,1)]) (Lf [(1,1);(13,1);(17,1);(27,1);(29,1)])));
   Never (Lf [(1,1);(3,1);(11,1);(14,1);(16,1)]);
   Never (Lf [(0,1);(1,1);(4,1);(11,1);(13,1)]);
   Never (Lf [(4,1);(13,1)]);
   Never (Lf [(2,1);(4,1);(11,1);(12,2);(15,1);(17,1)]);
   Never (Lf [(1,1);(2,2);(4,1);(5,1);(9,1);(13,1)]);
   Never (Lf [(0,1);(1,1);(2,1);(4,1);(9,1);(12,1);(14,1)]);
   Never (Lf [(0,1);(1,2);(2,2);(6,2);(12,1);(13,1)]);
   Never (Nd 0 (Lf [(18,1);(26,1)]) (Nd 4 (Lf [(11,1);(28,1)]) (Lf [(13,1);(27,1);(29,1)])));
   Never (Lf [(0,1);(1,1);(4,1);(9,1);(11,1);(13,1)]);
   Never (Lf [(9,1);(14,1);(18,1)]);
   Never (Lf [(1,1);(4,1);(9,1);(13,1)]);
   Never (Lf [(3,1);(4,1);(15,1)]);
   Never (Lf [(3,1);(13,1)]);
   Never (Lf [(2,1);(3,1);(4,1);(9,1);(12,1);(14,1)]);
   Never (Lf [(1,1);(2,2);(3,1);(5,1);(9,1);(13,1)]);
   Never (Lf [(1,1);(2,2);(3,1);(5,1);(9,1);(13,1)]);
   Never (Nd 4 (Lf [(1,1);(11,1);(12,1);(26,1)]) (Lf [(13,1);(27,1)]));
   Never (Lf [(3,1);(13,1)]);
   Never (Lf [(1,1);(9,1);(14,1)]);
   Never (Lf [(1,1);(4,1);(9,1);(13,1)]);
   Never (Lf [(1,2);(3,1);(4,1);(14,1);(15,1)]);
   Never (Lf [(0,1);(1,1);(4,1);(9,1);(11,1);(13,1)]);
   Never (Lf [(3,1);(4,1);(14,1)]);
   Never (Lf [(0,1);(1,2);(2,2);(6,2);(12,1);(13,1)]);
   Never (Lf [(1,1);(9,1);(15,1)]);
   Never (Lf [(1,1);(2,2);(4,1);(5,1);(9,1);(13,1)]);
   Never (Lf [(0,1);(1,2);(2,1);(4,1);(9,1);(12,1);(14,1)]);
   Never (Lf [(4,1);(13,1)]);
   Never (Lf [(0,1);(1,1);(4,1);(11,1);(13,1)]);
   Never (Lf [(8,1);(9,1);(11,1);(14,1)]);
   Never (Lf [(1,1);(4,1);(9,1);(13,1);(14,1)]);
   Never (Lf [(0,1);(7,1);(13,1)]);
   Never (Lf [(2,1);(9,1);(15,1);(16,1)]);
   Never (Lf [(3,1);(5,1);(13,1)]);
   Never (Lf [(3,1);(4,1);(9,2);(14,1)]);
   Never (Lf [(2,2);(3,1);(5,1);(9,2);(13,1)]);
   Never (Lf [(2,1);(3,1);(9,2);(12,1);(13,1)]);
   Never (Lf [(1,1);(3,1);(4,1);(9,1);(14,1)]);
   Never (Lf [(1,1);(9,1);(14,1)]);
   Never (Lf [(1,1);(12,1);(14,1);(16,1)]);
   Never (Nd 1 (Lf [(1,1);(7,1);(11,1);(12,1);(26,1)]) (Lf [(1,2);(2,2);(11,2);(12,2);(13,1);(27,1)]));
   Never (Lf [(1,1);(11,1);(12,1);(13,1);(17,1)]);
   Never (Lf [(1,1);(2,2);(5,1);(9,1);(13,1)]);
   Never (Lf [(0,1);(1,2);(2,2);(5,1);(9,1);(11,1);(13,1)]);
   Never (Lf [(1,2);(2,1);(3,1);(11,1);(12,2);(15,1)]);
   Never (Lf [(1,1);(2,2);(3,1);(5,1);(9,1);(14,1)]);
   Never (Lf [(1,1);(3,1);(4,1);(9,1);(13,1)]);
   Never (Lf [(3,1);(4,1);(9,2);(13,1)]);
   Never (Lf [(0,1);(5,1);(16,1)]);
   Never (Nd 3 (Lf [(1,1);(2,1);(11,1);(26,1)]) (Lf [(13,1);(27,1)]));
   Never (Lf [(1,1);(2,2);(9,1);(14,1)]);
   Never (Lf [(0,1);(2,1);(3,1);(9,1);(11,1);(13,1)]);
   Never (Lf [(2,1);(3,1);(7,1);(9,1);(11,1);(13,1)]);
   Never (Lf [(1,1);(5,1);(11,1);(12,2);(15,1);(16,2)]);
   Never (Lf [(0,1);(1,1);(2,1);(5,1);(11,1);(12,1);(13,1)]);
   Never (Lf [(0,1);(1,1);(2,1);(5,1);(12,1);(14,1)]);
   Never (Lf [(0,2);(1,2);(2,4);(5,1);(9,1);(11,1);(13,2)]);
   Never (Lf [(3,1);(5,1);(15,1)]);
   Never (Lf [(5,1);(13,1)]);
   Never (Lf [(0,2);(1,2);(5,1);(13,1)]);
   Never (Lf [(1,1);(2,2);(3,1);(5,1);(9,1);(14,1)]);
   Never (Lf [(0,1);(1,1);(2,1);(5,1);(9,1);(11,1);(13,1)]);
   Never (Nd 3 (Lf [(11,1);(26,1)]) (Lf [(13,1);(17,1);(18,1);(27,1)]))].
Definition certs_01_2 : list cert :=
  [Never (Lf [(0,1);(3,1);(11,1);(13,1)]);
   Never (Lf [(5,1);(11,1);(14,1);(16,1);(18,1)]);
   Never (Lf [(3,1);(13,1)]);
   Never (Lf [(0,1);(3,1);(5,1);(7,1);(14,1)]);
   Never (Lf [(1,1);(2,2);(3,1);(5,1);(9,1);(15,1)]);
   Never (Lf [(3,1);(13,1)]);
   Never (Lf [(1,1);(2,2);(9,1);(14,1)]);
   Never (Lf [(0,1);(3,1);(11,1);(13,1)]);
   Never (Lf [(2,2);(3,1);(5,1);(9,2);(14,1)]);
   Never (Lf [(0,1);(1,1);(2,1);(5,1);(9,1);(11,1);(13,1)]);
   Never (Nd 1 (Lf [(1,1);(17,1);(26,1)]) (Lf [(2,3);(9,1);(11,2);(13,1);(17,1);(27,1)]));
   Never (Lf [(0,2);(1,2);(5,1);(13,1)]);
   Never (Lf [(5,1);(13,1)]);
   Never (Lf [(8,1);(9,1);(14,1);(16,1)]);
   Never (Lf [(0,2);(1,2);(2,4);(5,1);(9,1);(11,1);(13,2)]);
   Never (Lf [(1,1);(2,2);(9,1);(15,1)]);
   Never (Lf [(0,1);(1,1);(2,1);(5,1);(11,1);(12,1);(13,1)]);
   Never (Lf [(0,1);(1,1);(2,2);(5,1);(6,1);(12,2);(14,1)]);
   Never (Lf [(2,1);(3,1);(7,1);(9,1);(11,1);(13,1)]);
   Never (Lf [(0,1);(2,1);(3,1);(9,1);(11,1);(13,1)]);
   Never (Lf [(0,1);(7,1);(15,1)]);
   Never (Lf [(3,1);(5,1);(14,1)]);
   Never (Lf [(0,1);(3,1);(5,1);(7,1);(14,1)]);
   Never (Lf [(3,1);(4,1);(9,2);(13,1)]);
   Never (Lf [(1,1);(3,1);(4,1);(9,1);(13,1)]);
   Never (Lf [(2,1);(9,1);(15,1);(17,1)]);
   Never (Lf [(0,1);(3,1);(9,1);(12,1);(14,1)]);
   Never (Lf [(0,1);(1,2);(2,2);(5,1);(9,1);(11,1);(13,1)]);
   Never (Lf [(1,1);(2,2);(5,1);(9,1);(13,1)]);
   Never (Lf [(0,2);(1,2);(5,1);(13,1);(14,1)]);
   Never (Lf [(5,1);(13,1);(14,1)]);
   Never (Lf [(2,2);(3,1);(5,1);(9,2);(15,1)]);
   Never (Nd 1 (Lf [(9,1);(12,1);(17,1);(26,1)]) (Nd 2 (Nd 4 (Lf [(17,1);(29,1)]) (Lf [(2,1);(12,1);(28,1);(30,1)])) (Lf [(0,1);(17,1);(29,1)])));
   Never (Lf [(5,1);(14,1)]);
   Never (Lf [(1,1);(2,2);(5,1);(9,1);(13,1)]);
   Never (Lf [(0,2);(5,1);(14,1)]);
   Never (Lf [(2,2);(3,1);(5,1);(9,2);(13,1)]);
   Never (Nd 4 (Lf [(18,1);(26,1)]) (Lf [(14,1);(27,1)]));
   Never (Lf [(1,1);(9,1);(13,1)]);
   Never (Lf [(0,1);(7,1);(14,1)]);
   Never (Lf [(3,1);(4,1);(9,2);(13,1)]);
   Never (Nd 1 (Lf [(7,1);(12,1);(16,1);(26,1)]) (Lf [(2,2);(12,2);(14,1);(16,2);(27,1)]));
   Never (Lf [(2,1);(3,1);(12,1);(13,1);(17,2)]);
   Never (Lf [(4,1);(5,1);(14,1)]);
   Never (Lf [(3,1);(5,1);(13,1)]);
   Never (Lf [(0,1);(3,1);(5,1);(7,1);(13,1)]);
   Never (Lf [(4,1);(5,1);(15,1)]);
   Never (Lf [(5,1);(14,1)]);
   Never (Lf [(1,1);(2,2);(4,1);(5,1);(9,1);(13,1)]);
   Never (Lf [(0,2);(5,1);(14,1)]);
   Never (Lf [(1,1);(2,2);(9,1);(13,1)]);
   Never (Lf [(5,1);(15,1)]);
   Never (Lf [(1,1);(4,1);(5,1);(9,1);(13,1)]);
   Never (Lf [(0,1);(7,1);(14,1)]);
   Never (Lf [(1,1);(4,1);(9,1);(13,1)]);
   Never (Lf [(4,1);(15,1)]);
   Never (Lf [(3,1);(4,1);(13,1)]);
   Never (Lf [(4,1);(5,1);(14,1)]);
   Never (Lf [(3,1);(13,1)]);
   Never (Lf [(0,2);(5,1);(14,1)]);
   Never (Lf [(0,1);(5,1);(17,1)]);
   Never (Lf [(3,1);(13,1)]);
   Never (Nd 1 (Lf [(6,1);(16,1);(26,1)]) (Nd 2 (Lf [(2,1);(16,1);(28,1)]) (Lf [(15,1);(27,1);(29,1)])));
   Never (Lf [(3,1);(4,1);(13,1)])].
Definition certs_01_3 : list cert :=
  [Never (Lf [(7,1);(8,1);(14,1)]);
   Never (Lf [(1,1);(4,1);(9,1);(13,1)]);
   Never (Nd 3 (Lf [(17,1);(26,1)]) (Lf [(15,1);(27,1)]));
   Never (Lf [(1,1);(4,1);(5,1);(9,1);(13,1)]);
   Never (Lf [(4,1);(14,1)]);
   Never (Lf [(1,1);(2,2);(9,1);(13,1)]);
   Never (Lf [(0,1);(5,1);(17,1)]);
   Never (Lf [(1,1);(2,2);(4,1);(5,1);(9,1);(13,1)]);
   Never (Nd 2 (Lf [(2,1);(12,1);(26,1)]) (Lf [(14,1);(27,1)]));
   Never (Lf [(0,1);(2,1);(6,1);(12,1);(14,1)]);
   Never (Lf [(0,1);(3,1);(5,1);(7,1);(13,1)]);
   Never (Lf [(3,1);(5,1);(13,1)]);
   Never (Lf [(0,1);(7,1);(15,1)]);
   Never (Lf [(3,1);(4,1);(13,1);(14,1)]);
   Never (Lf [(7,1);(8,1);(14,1)]);
   Never (Lf [(3,1);(4,1);(9,2);(13,1)]);
   Never (Lf [(0,1);(8,1);(15,1)]);
   Never (Lf [(1,1);(9,1);(13,1)]);
   Never (Lf [(4,1);(14,1)]);
   Never (Lf [(2,2);(3,1);(5,1);(9,2);(13,1)]);
   Never (Lf [(7,1);(8,1);(15,1)]);
   Never (Lf [(1,1);(2,2);(5,1);(9,1);(13,1)]);
   Never (Lf [(7,1);(8,1);(15,1)]);
   Never (Lf [(0,1);(8,1);(14,1)]);
   Never (Lf [(5,1);(11,1);(14,1);(16,1);(18,1)]);
   Never (Lf [(0,1);(1,1);(4,1);(5,1);(6,1);(14,1)]);
   Never (Nd 0 (Lf [(2,1);(6,1);(11,1);(18,1);(26,1)]) (Lf [(11,2);(12,2);(13,1);(17,2);(27,1)]));
   Never (Lf [(1,1);(4,1);(6,1);(11,1);(13,1)]);
   Never (Lf [(0,1);(1,1);(4,1);(6,1);(11,2);(13,1)]);
   Never (Lf [(2,1);(15,1);(17,1)]);
   Never (Lf [(0,1);(1,1);(4,1);(12,1);(14,1)]);
   Never (Lf [(0,1);(1,1);(4,1);(11,1);(12,1);(13,1)]);
   Never (Lf [(0,2);(1,4);(2,1);(4,1);(9,1);(11,1);(13,2)]);
   Never (Lf [(1,1);(5,1);(11,1);(12,2);(15,1);(16,2)]);
   Never (Lf [(0,1);(1,1);(2,1);(5,1);(9,1);(12,1);(14,1)]);
   Never (Lf [(0,2);(5,1);(9,1);(11,1);(13,2)]);
   Never (Lf [(0,1);(1,1);(2,2);(5,2);(11,2);(12,3);(13,1)]);
   Never (Lf [(4,1);(5,1);(15,1)]);
   Never (Lf [(0,1);(1,1);(4,1);(5,1);(6,1);(14,1)]);
   Never (Lf [(4,1);(13,1)]);
   Never (Lf [(1,1);(4,1);(5,1);(9,1);(14,1)]);
   Never (Lf [(0,1);(1,1);(2,1);(4,1);(9,1);(11,1);(13,1)]);
   Never (Nd 0 (Lf [(2,1);(9,1);(17,1);(26,1)]) (Nd 1 (Lf [(6,1);(11,1);(28,1)]) (Lf [(2,2);(11,2);(13,1);(27,1);(29,1)])));
   Never (Lf [(2,1);(4,1);(11,1);(14,1);(16,1)]);
   Never (Lf [(0,1);(1,1);(2,1);(5,1);(11,1);(13,1)]);
   Never (Lf [(5,1);(13,1)]);
   Never (Lf [(0,2);(1,2);(5,1);(13,1)]);
   Never (Lf [(1,1);(5,1);(9,1);(11,2);(13,1)]);
   Never (Nd 0 (Lf [(2,1);(12,1);(26,1)]) (Nd 1 (Lf [(1,1);(12,1);(28,1)]) (Lf [(1,1);(9,1);(11,2);(13,1);(27,1);(29,1)])));
   Never (Lf [(0,1);(1,2);(2,2);(5,1);(9,1);(11,1);(13,1)]);
   Never (Lf [(1,1);(9,1);(14,1)]);
   Never (Lf [(1,1);(2,2);(5,1);(9,1);(13,1)]);
   Never (Lf [(1,1);(2,2);(5,1);(9,1);(13,1)]);
   Never (Lf [(2,2);(4,1);(5,1);(14,1);(15,1)]);
   Never (Lf [(0,1);(1,2);(2,2);(5,1);(9,1);(11,1);(13,1)]);
   Never (Lf [(5,1);(13,1);(14,1)]);
   Never (Lf [(1,1);(5,1);(9,1);(11,2);(13,1)]);
   Never (Lf [(0,2);(1,2);(5,1);(13,1)]);
   Never (Lf [(5,1);(13,1)]);
   Never (Lf [(0,1);(1,1);(2,1);(5,1);(11,1);(13,1)]);
   Never (Lf [(1,1);(9,1);(14,1)]);
   Never (Lf [(1,1);(2,2);(5,1);(9,1);(13,1);(14,1)]);
   Never (Lf [(0,1);(1,1);(2,1);(4,1);(9,1);(11,1);(13,1)]);
   Never (Nd 0 (Lf [(2,1);(6,1);(11,1);(26,1)]) (Lf [(1,3);(2,2);(9,1);(11,2);(13,1);(27,1)]))].
Definition certs_01_4 : list cert :=
  [Never (Lf [(4,1);(13,1)]);
   Never (Lf [(0,1);(5,1);(16,1)]);
   Never (Lf [(1,1);(2,2);(9,1);(14,1)]);
   Never (Lf [(0,1);(1,1);(2,2);(5,2);(11,2);(12,3);(13,1)]);
   Never (Lf [(0,2);(5,1);(9,1);(11,1);(13,2)]);
   Never (Lf [(1,1);(2,2);(9,1);(15,1)]);
   Never (Lf [(1,1);(2,2);(4,1);(5,1);(9,1);(14,1)]);
   Never (Lf [(0,2);(1,4);(2,1);(4,1);(9,1);(11,1);(13,2)]);
   Never (Lf [(0,1);(1,1);(4,1);(11,1);(12,1);(13,1)]);
   Never (Lf [(1,1);(9,1);(15,1)]);
   Never (Lf [(0,1);(1,2);(4,1);(8,1);(12,2);(14,1)]);
   Never (Lf [(0,1);(1,1);(4,1);(6,1);(11,2);(13,1)]);
   Never (Lf [(1,1);(4,1);(6,1);(11,1);(13,1)]);
   Never (Lf [(0,1);(1,1);(2,2);(6,1);(14,1)]);
   Never (Lf [(0,1);(1,2);(2,2);(6,2);(11,1);(15,1)]);
   Never (Lf [(1,1);(2,2);(6,1);(11,1);(14,1)]);
   Never (Nd 0 (Lf [(2,1);(6,1);(16,1);(26,1)]) (Nd 1 (Lf [(1,1);(6,1);(16,1);(28,1)]) (Lf [(1,2);(2,2);(15,1);(16,2);(27,1);(29,1)])));
   Never (Lf [(3,1);(14,1)]);
   Never (Lf [(0,1);(1,1);(5,1);(17,1)]);
   Never (Lf [(7,1);(8,1);(13,1)]);
   Never (Lf [(3,1);(4,1);(9,2);(13,1)]);
   Never (Nd 4 (Lf [(1,1);(18,1);(26,1)]) (Lf [(8,1);(14,1);(16,1);(18,1);(27,1)]));
   Never (Lf [(3,1);(5,1);(14,1)]);
   Never (Lf [(4,1);(13,1);(17,1);(18,1)]);
   Never (Lf [(3,1);(4,1);(13,1)]);
   Never (Lf [(3,1);(5,1);(15,1)]);
   Never (Lf [(3,1);(14,1)]);
   Never (Lf [(0,1);(3,1);(5,1);(7,1);(13,1)]);
   Never (Lf [(0,1);(7,1);(13,1)]);
   Never (Lf [(3,1);(4,1);(9,2);(13,1);(14,1)]);
   Never (Lf [(5,1);(15,1)]);
   Never (Lf [(3,1);(5,1);(14,1)]);
   Never (Lf [(4,1);(5,1);(13,1)]);
   Never (Lf [(4,1);(13,1)]);
   Never (Lf [(0,1);(1,1);(5,1);(17,1)]);
   Never (Nd 0 (Lf [(2,1);(6,1);(12,1);(26,1)]) (Lf [(1,3);(2,2);(9,1);(12,2);(14,1);(27,1)]));
   Never (Lf [(1,1);(2,2);(9,1);(13,1)]);
   Never (Lf [(1,1);(9,1);(13,1)]);
   Never (Lf [(0,1);(1,2);(2,2);(6,2);(12,1);(13,1)]);
   Never (Lf [(3,1);(15,1)]);
   Never (Lf [(3,1);(15,1)]);
   Never (Lf [(1,1);(2,2);(3,1);(5,1);(9,1);(13,1)]);
   Never (Lf [(1,1);(3,1);(4,1);(9,1);(14,1)]);
   Never (Lf [(1,1);(2,2);(5,1);(9,1);(13,1)]);
   Never (Lf [(1,1);(2,2);(5,1);(9,1);(13,1)]);
   Never (Nd 0 (Lf [(8,1);(17,1);(26,1)]) (Nd 4 (Lf [(1,1);(17,1);(28,1)]) (Lf [(15,1);(27,1);(29,1)])));
   Never (Lf [(1,1);(2,2);(3,1);(5,1);(9,1);(13,1)]);
   Never (Lf [(5,1);(14,1)]);
   Never (Lf [(0,2);(1,2);(5,1);(14,1)]);
   Never (Lf [(0,1);(1,2);(2,2);(6,2);(12,1);(13,1)]);
   Never (Lf [(1,1);(9,1);(13,1)]);
   Never (Lf [(1,1);(2,2);(9,1);(13,1)]);
   Never (Lf [(5,1);(14,1)]);
   Never (Lf [(0,2);(1,2);(5,1);(14,1)]);
   Never (Lf [(4,1);(13,1)]);
   Never (Lf [(4,1);(5,1);(13,1)]);
   Never (Nd 3 (Lf [(16,1);(26,1)]) (Lf [(15,1);(27,1)]));
   Never (Lf [(1,1);(4,1);(9,1);(14,1)]);
   Never (Lf [(8,1);(9,1);(13,1);(17,1)]);
   Never (Lf [(0,1);(7,1);(13,1)]);
   Never (Lf [(0,1);(3,1);(5,1);(7,1);(13,1)]);
   Never (Nd 1 (Lf [(1,1);(16,1);(26,1)]) (Lf [(2,1);(9,1);(12,2);(14,1);(16,1);(27,1)]));
   Never (Lf [(1,1);(4,1);(5,1);(9,1);(14,1)]);
   Never (Lf [(3,1);(4,1);(13,1)])].
Definition certs_01_5 : list cert :=
  [Never (Lf [(4,1);(5,1);(13,1);(14,1)]);
   Never (Lf [(1,2);(3,1);(4,1);(13,1);(15,1)]);
   Never (Lf [(1,1);(4,1);(9,1);(14,1)]);
   Never (Lf [(3,1);(4,1);(9,2);(13,1)]);
   Never (Lf [(7,1);(8,1);(13,1)]);
   Never (Lf [(0,2);(1,2);(5,1);(14,1)]);
   Never (Lf [(1,1);(4,1);(9,1);(15,1)]);
   Never (Lf [(1,1);(4,1);(5,1);(9,1);(14,1)]);
   Never (Nd 3 (Lf [(2,1);(16,1);(26,1)]) (Lf [(7,1);(12,1);(15,1);(16,1);(17,1);(27,1)]));
   Never (Lf [(4,1);(14,1)]);
   Never (Lf [(1,1);(4,1);(9,1);(13,1)]);
   Never (Lf [(1,2);(2,2);(4,1);(5,1);(9,2);(13,1)]);
   Never (Lf [(3,1);(4,1);(15,1)]);
   Never (Lf [(4,1);(14,1)]);
   Never (Lf [(1,1);(3,1);(4,1);(9,1);(13,1)]);
   Never (Lf [(1,1);(9,1);(13,1)]);
   Never (Lf [(0,1);(5,1);(14,1);(16,1);(18,1)]);
   Never (Nd 1 (Lf [(7,1);(12,1);(26,1)]) (Lf [(2,2);(9,1);(12,1);(14,1);(18,1);(27,1)]));
   Never (Lf [(1,1);(2,2);(9,1);(13,1)]);
   Never (Lf [(2,1);(7,1);(9,1);(13,1);(18,1)]);
   Never (Lf [(2,2);(3,1);(5,1);(9,2);(13,1)]);
   Never (Lf [(4,1);(15,1)]);
   Never (Lf [(4,1);(15,1)]);
   Never (Lf [(1,1);(2,2);(4,1);(5,1);(9,1);(14,1)]);
   Never (Lf [(0,1);(8,1);(13,1)]);
   Never (Lf [(7,1);(8,1);(13,1)]);
   Never (Nd 0 (Lf [(2,1);(6,1);(12,1);(16,1);(26,1)]) (Lf [(1,2);(12,2);(14,1);(16,2);(27,1)]));
   Never (Lf [(3,1);(4,1);(14,1)]);
   Never (Lf [(1,1);(5,1);(12,1);(13,1);(17,2)]);
   Never (Lf [(4,1);(5,1);(13,1)]);
   Never (Lf [(0,1);(1,1);(4,1);(5,1);(6,1);(13,1)]);
   Never (Lf [(3,1);(15,1)]);
   Never (Lf [(3,1);(4,1);(14,1)]);
   Never (Lf [(3,1);(5,1);(13,1)]);
   Never (Lf [(5,1);(13,1)]);
   Never (Lf [(0,2);(1,2);(5,1);(13,1)]);
   Never (Lf [(0,2);(1,2);(5,1);(13,1)]);
   Never (Lf [(5,1);(13,1)]);
   Never (Lf [(3,1);(5,1);(13,1)]);
   Never (Nd 0 (Lf [(8,1);(16,1);(26,1)]) (Nd 4 (Lf [(1,1);(16,1);(28,1)]) (Lf [(15,1);(27,1);(29,1)])));
   Never (Lf [(1,1);(2,2);(5,1);(9,1);(14,1)]);
   Never (Lf [(0,1);(1,1);(4,1);(5,1);(6,1);(13,1)]);
   Never (Lf [(4,1);(5,1);(13,1)]);
   Never (Lf [(0,2);(1,3);(2,2);(5,1);(12,1);(13,1);(14,2)]);
   Never (Lf [(2,2);(4,1);(5,1);(13,1);(15,1)]);
   Never (Lf [(1,1);(2,2);(5,1);(6,1);(12,1);(14,1)]);
   Never (Lf [(7,1);(8,1);(13,1)]);
   Never (Lf [(0,1);(8,1);(13,1)]);
   Never (Nd 0 (Lf [(2,1);(11,1);(26,1)]) (Nd 1 (Lf [(6,1);(17,1);(28,1)]) (Lf [(1,1);(2,1);(15,1);(16,1);(17,1);(27,1);(29,1)])));
   Never (Lf [(3,1);(14,1)]);
   Never (Lf [(0,1);(5,1);(16,1)]);
   Never (Lf [(2,2);(3,1);(5,1);(9,2);(13,1)]);
   Never (Lf [(3,1);(4,1);(14,1)]);
   Never (Lf [(1,1);(2,2);(9,1);(13,1)]);
   Never (Lf [(3,1);(14,1)]);
   Never (Lf [(1,1);(2,2);(3,1);(5,1);(9,1);(15,1)]);
   Never (Lf [(1,1);(9,1);(13,1)]);
   Never (Lf [(1,1);(3,1);(4,1);(9,1);(13,1)]);
   Never (Nd 4 (Lf [(1,1);(12,1);(26,1)]) (Lf [(14,1);(27,1)]));
   Never (Lf [(1,2);(2,2);(3,1);(5,1);(13,1);(14,1)]);
   Never (Lf [(1,2);(2,2);(4,1);(5,1);(9,2);(13,1)]);
   Never (Lf [(1,1);(4,1);(9,1);(13,1)]);
   Never (Lf [(1,1);(2,2);(5,1);(9,1);(15,1)]);
   Never (Lf [(1,1);(2,2);(3,1);(5,1);(9,1);(14,1)])].
Definition certs_01_6 : list cert :=
  [Never (Lf [(1,1);(2,2);(4,1);(5,1);(9,1);(14,1)]);
   Never (Lf [(1,1);(2,2);(5,1);(9,1);(15,1)]);
   Never (Lf [(7,1);(8,1);(13,1)]);
   Never (Lf [(2,2);(3,1);(5,1);(9,2);(13,1)]);
   Never (Lf [(2,2);(4,1);(5,1);(13,1);(14,1)]);
   Never (Nd 0 (Lf [(16,1);(26,1)]) (Nd 4 (Lf [(12,1);(28,1)]) (Lf [(14,1);(27,1);(29,1)])));
   Never (Lf [(0,1);(8,1);(13,1)]);
   Never (Lf [(2,1);(7,1);(9,1);(13,1);(17,1)]);
   Never (Lf [(1,1);(2,2);(5,1);(9,1);(14,1)]);
   Never (Lf [(1,2);(2,2);(3,1);(5,1);(13,1);(15,1)]);
   Never (Lf [(4,1);(5,1);(13,1);(14,1)]);
   Never (Lf [(3,1);(5,1);(13,1)]);
   Never (Lf [(0,1);(3,1);(5,1);(7,1);(13,1)]);
   Never (Lf [(1,1);(2,2);(5,1);(9,1);(14,1)]);
   Never (Nd 4 (Lf [(16,1);(26,1)]) (Lf [(15,1);(27,1)]));
   Never (Lf [(4,1);(5,1);(13,1)]);
   Never (Lf [(5,1);(13,1)]);
   Never (Lf [(0,2);(5,1);(13,1)]);
   Never (Lf [(1,1);(2,2);(4,1);(5,1);(9,1);(15,1)]);
   Never (Lf [(4,1);(14,1)]);
   Never (Lf [(1,1);(2,2);(9,1);(13,1)]);
   Never (Lf [(1,1);(9,1);(13,1)]);
   Never (Lf [(0,1);(1,2);(2,2);(6,2);(12,1);(13,1)]);
   Never (Lf [(0,1);(1,1);(5,1);(16,1)]);
   Never (Lf [(4,1);(14,1)]);
   Never (Nd 1 (Lf [(1,1);(7,1);(17,1);(26,1)]) (Lf [(2,1);(15,1);(16,1);(17,1);(27,1)]));
   Never (Lf [(1,1);(3,1);(4,1);(9,1);(13,1)]);
   Never (Lf [(1,1);(4,1);(9,1);(13,1)]);
   Never (Lf [(1,1);(4,1);(9,1);(13,1)]);
   Never (Lf [(1,1);(3,1);(4,1);(9,1);(13,1)]);
   Never (Lf [(1,1);(2,2);(3,1);(5,1);(9,1);(14,1)]);
   Never (Lf [(3,1);(15,1)]);
   Never (Lf [(3,1);(15,1)]);
   Never (Lf [(0,1);(1,2);(2,2);(6,2);(12,1);(13,1)]);
   Never (Lf [(1,1);(9,1);(13,1)]);
   Never (Lf [(1,1);(2,2);(9,1);(13,1)]);
   Never (Nd 0 (Lf [(2,1);(6,1);(12,1);(26,1)]) (Nd 1 (Lf [(1,1);(6,1);(12,1);(28,1)]) (Lf [(1,3);(2,2);(9,1);(12,2);(14,1);(27,1);(29,1)])));
   Never (Lf [(1,1);(12,1);(14,1);(16,1)]);
   Never (Lf [(0,2);(5,1);(13,1)]);
   Never (Lf [(5,1);(13,1)]);
   Never (Lf [(4,1);(5,1);(13,1)]);
   Never (Lf [(3,1);(4,1);(14,1)]);
   Never (Lf [(4,1);(15,1)]);
   Never (Lf [(0,1);(3,1);(5,1);(7,1);(13,1)]);
   Never (Lf [(3,1);(5,1);(13,1)]);
   Never (Lf [(5,1);(13,1);(17,1);(18,1)]);
   Never (Lf [(3,1);(4,1);(14,1)]);
   Never (Nd 3 (Lf [(1,1);(2,1);(18,1);(26,1)]) (Lf [(7,1);(14,1);(16,1);(18,1);(27,1)]));
   Never (Lf [(2,2);(3,1);(5,1);(9,2);(13,1);(14,1)]);
   Never (Lf [(0,1);(8,1);(13,1)]);
   Never (Lf [(3,1);(14,1)]);
   Never (Lf [(3,1);(4,1);(15,1)]);
   Never (Lf [(2,2);(3,1);(5,1);(9,2);(13,1)]);
   Never (Lf [(7,1);(8,1);(13,1)]);
   Never (Lf [(3,1);(14,1)]);
   Never (Nd 0 (Lf [(2,1);(6,1);(16,1);(26,1)]) (Lf [(1,2);(15,1);(16,2);(27,1)]));
   Never (Lf [(1,1);(3,1);(4,1);(9,1);(14,1)]);
   Never (Lf [(1,1);(4,1);(9,1);(15,1)]);
   Never (Lf [(1,1);(4,1);(9,1);(15,1)]);
   Never (Lf [(1,1);(2,2);(5,1);(9,1);(13,1)]);
   Never (Lf [(1,2);(2,2);(4,1);(5,1);(9,2);(13,1)]);
   Never (Lf [(3,1);(14,1)]);
   Never (Lf [(1,1);(9,1);(13,1)]);
   Never (Lf [(3,1);(5,1);(14,1)])].
Definition certs_01_7 : list cert :=
  [Never (Lf [(3,1);(4,1);(9,2);(13,1)]);
   Never (Lf [(1,2);(3,1);(4,1);(13,1);(14,1)]);
   Never (Nd 3 (Lf [(1,1);(2,1);(12,1);(26,1)]) (Lf [(14,1);(27,1)]));
   Never (Lf [(0,1);(1,1);(5,1);(17,1)]);
   Never (Lf [(1,1);(2,2);(3,1);(5,1);(9,1);(13,1)]);
   Never (Lf [(1,1);(2,2);(9,1);(13,1)]);
   Never (Lf [(3,1);(14,1)]);
   Never (Nd 0 (Lf [(11,1);(26,1)]) (Lf [(1,1);(15,1);(16,1);(17,1);(27,1)]));
   Never (Lf [(0,1);(7,1);(13,1)]);
   Never (Lf [(7,1);(8,1);(13,1)]);
   Never (Lf [(1,1);(4,1);(6,1);(12,1);(14,1)]);
   Never (Lf [(0,2);(1,3);(2,1);(4,1);(12,1);(13,1);(14,2)]);
   Never (Lf [(1,1);(4,1);(5,1);(9,1);(15,1)]);
   Never (Lf [(4,1);(5,1);(13,1)]);
   Never (Lf [(0,1);(1,1);(4,1);(5,1);(6,1);(13,1)]);
   Never (Lf [(1,1);(4,1);(9,1);(14,1)]);
   Never (Lf [(3,1);(4,1);(13,1)]);
   Never (Nd 1 (Lf [(1,1);(7,1);(16,1);(26,1)]) (Lf [(1,1);(2,2);(9,1);(15,1);(16,2);(27,1)]));
   Never (Lf [(4,1);(13,1)]);
   Never (Lf [(0,1);(1,1);(5,1);(17,1)]);
   Never (Lf [(0,2);(1,2);(5,1);(14,1)]);
   Never (Lf [(4,1);(13,1)]);
   Never (Lf [(3,1);(5,1);(14,1)]);
   Never (Lf [(3,1);(4,1);(13,1)]);
   Never (Lf [(3,1);(15,1)]);
   Never (Lf [(0,1);(1,1);(4,1);(5,1);(6,1);(13,1)]);
   Never (Lf [(4,1);(5,1);(13,1)]);
   Never (Lf [(3,1);(5,1);(14,1)]);
   Never (Lf [(1,1);(2,1);(4,1);(12,1);(13,1);(17,2)]);
   Never (Nd 0 (Lf [(2,1);(6,1);(12,1);(16,1);(26,1)]) (Nd 1 (Lf [(1,1);(6,1);(12,1);(16,1);(28,1)]) (Lf [(1,2);(2,2);(12,2);(14,1);(16,2);(27,1);(29,1)])));
   Never (Lf [(7,1);(8,1);(13,1)]);
   Never (Lf [(0,1);(7,1);(13,1)]);
   Never (Lf [(1,1);(4,1);(5,1);(9,1);(14,1)]);
   Never (Lf [(5,1);(15,1)]);
   Never (Lf [(1,1);(2,2);(9,1);(13,1)]);
   Never (Lf [(1,1);(2,2);(3,1);(5,1);(9,1);(13,1)]);
   Never (Lf [(0,2);(1,2);(5,1);(14,1)]);
   Never (Lf [(5,1);(14,1)]);
   Never (Lf [(3,1);(5,1);(15,1)]);
   Never (Lf [(3,1);(4,1);(9,2);(13,1)]);
   Never (Lf [(8,1);(9,1);(13,1);(18,1)]);
   Never (Lf [(1,1);(9,1);(13,1)]);
   Never (Nd 0 (Lf [(8,1);(18,1);(26,1)]) (Nd 4 (Lf [(1,1);(18,1);(28,1)]) (Lf [(14,1);(27,1);(29,1)])));
   Never (Lf [(1,2);(2,2);(4,1);(5,1);(9,2);(13,1)]);
   Never (Lf [(1,1);(2,2);(5,1);(9,1);(13,1)]);
   Never (Lf [(0,2);(1,2);(5,1);(14,1)]);
   Never (Lf [(5,1);(14,1)]);
   Never (Nd 4 (Lf [(1,1);(17,1);(26,1)]) (Lf [(2,1);(12,1);(15,1);(17,1);(27,1)]));
   Never (Lf [(1,1);(6,1);(11,1);(14,1)]);
   Never (Lf [(5,1);(13,1);(14,1)]);
   Never (Lf [(1,1);(2,2);(5,1);(6,1);(11,1);(13,1)]);
   Never (Lf [(0,2);(5,1);(13,1);(14,1)]);
   Never (Lf [(0,1);(1,1);(2,2);(5,1);(6,1);(11,2);(13,1)]);
   Never (Lf [(1,1);(4,1);(5,1);(9,1);(14,1)]);
   Never (Lf [(1,1);(9,1);(15,1)]);
   Never (Lf [(0,2);(2,1);(4,1);(9,1);(11,1);(13,2)]);
   Never (Lf [(0,1);(1,1);(4,1);(6,1);(11,2);(12,2);(13,1)]);
   Never (Lf [(0,1);(1,2);(2,2);(5,2);(11,1);(12,3);(14,1)]);
   Never (Lf [(1,1);(2,2);(9,1);(15,1)]);
   Never (Lf [(0,1);(1,1);(2,1);(5,1);(11,1);(12,1);(13,1)]);
   Never (Lf [(1,1);(2,2);(3,1);(5,1);(9,1);(13,1)]);
   Never (Lf [(1,1);(9,1);(14,1)]);
   Never (Lf [(5,1);(13,1)]);
   Never (Nd 0 (Lf [(2,1);(6,1);(11,1);(26,1)]) (Nd 1 (Lf [(1,1);(6,1);(11,1);(28,1)]) (Lf [(1,3);(2,2);(9,1);(11,2);(13,1);(27,1);(29,1)])))].
Definition certs_01_8 : list cert :=
  [Never (Lf [(0,2);(5,1);(13,1)]);
   Never (Lf [(0,1);(1,1);(2,1);(5,1);(9,1);(11,1);(13,1)]);
   Never (Lf [(0,1);(1,1);(4,1);(5,1);(6,1);(14,1)]);
   Never (Lf [(4,1);(5,1);(14,1)]);
   Never (Lf [(0,1);(1,1);(6,1);(15,1)]);
   Never (Lf [(0,1);(1,2);(2,1);(4,1);(9,1);(11,1);(13,1)]);
   Never (Lf [(1,1);(4,1);(9,1);(13,1)]);
   Never (Lf [(1,2);(2,2);(4,1);(5,1);(9,2);(14,1)]);
   Never (Lf [(0,1);(1,1);(4,1);(11,1);(13,1)]);
   Never (Lf [(1,1);(2,2);(9,1);(14,1)]);
   Never (Lf [(4,1);(13,1)]);
   Never (Lf [(1,1);(2,2);(4,1);(5,1);(9,1);(15,1)]);
   Never (Lf [(0,1);(1,1);(4,1);(5,1);(6,1);(14,1)]);
   Never (Lf [(4,1);(13,1)]);
   Never (Lf [(1,1);(5,2);(9,1);(11,2);(14,1);(16,2)]);
   Never (Lf [(0,1);(1,1);(4,1);(11,1);(13,1)]);
   Never (Nd 0 (Lf [(2,1);(9,1);(17,1);(26,1)]) (Lf [(1,2);(9,2);(11,2);(13,1);(17,2);(27,1)]));
   Never (Lf [(1,1);(4,1);(9,1);(13,1)]);
   Never (Lf [(0,1);(1,2);(2,1);(4,1);(9,1);(11,1);(13,1)]);
   Never (Lf [(1,1);(2,2);(9,1);(14,1)]);
   Never (Nd 0 (Lf [(12,1);(26,1)]) (Lf [(1,1);(2,2);(9,1);(11,2);(13,1);(27,1)]));
   Never (Lf [(0,1);(1,1);(5,1);(16,1)]);
   Never (Lf [(0,1);(1,1);(2,1);(5,1);(9,1);(11,1);(13,1)]);
   Never (Lf [(0,2);(5,1);(13,1)]);
   Never (Lf [(1,1);(2,2);(5,1);(9,1);(13,1);(14,1)]);
   Never (Lf [(5,1);(13,1)]);
   Never (Lf [(4,1);(5,1);(15,1)]);
   Never (Lf [(1,1);(2,2);(3,1);(5,1);(9,1);(13,1)]);
   Never (Lf [(0,1);(1,1);(2,1);(5,1);(11,1);(12,1);(13,1)]);
   Never (Lf [(0,1);(1,1);(2,1);(5,1);(12,1);(14,1)]);
   Never (Lf [(5,1);(11,1);(12,2);(15,1);(16,1);(17,1)]);
   Never (Lf [(0,1);(1,1);(4,1);(6,1);(11,2);(12,2);(13,1)]);
   Never (Lf [(0,2);(2,1);(4,1);(9,1);(11,1);(13,2)]);
   Never (Lf [(1,1);(2,2);(4,1);(5,1);(9,1);(14,1)]);
   Never (Lf [(2,1);(4,1);(11,1);(12,2);(15,1);(16,1)]);
   Never (Lf [(0,1);(1,1);(2,2);(5,1);(6,1);(11,2);(13,1)]);
   Never (Lf [(0,1);(5,1);(11,1);(13,1);(17,1);(18,1)]);
   Never (Lf [(1,1);(2,2);(5,1);(6,1);(11,1);(13,1)]);
   Never (Nd 0 (Lf [(2,1);(6,1);(11,1);(18,1);(26,1)]) (Nd 1 (Lf [(6,1);(11,1);(12,1);(28,1)]) (Lf [(2,2);(11,2);(12,2);(13,1);(27,1);(29,1)])));
   Never (Lf [(2,1);(14,1);(18,1)]);
   Never (Lf [(0,1);(7,1);(14,1)]);
   Never (Lf [(0,2);(5,1);(14,1)]);
   Never (Lf [(7,1);(8,1);(15,1)]);
   Never (Lf [(1,1);(4,1);(9,1);(13,1)]);
   Never (Lf [(3,1);(4,1);(9,2);(13,1)]);
   Never (Lf [(7,1);(8,1);(14,1)]);
   Never (Lf [(3,1);(5,1);(13,1);(14,1)]);
   Never (Lf [(0,1);(8,1);(15,1)]);
   Never (Lf [(3,1);(4,1);(13,1)]);
   Never (Lf [(0,2);(5,1);(14,1)]);
   Never (Lf [(5,1);(14,1)]);
   Never (Lf [(1,1);(2,2);(9,1);(13,1)]);
   Never (Lf [(0,1);(7,1);(15,1)]);
   Never (Lf [(2,2);(3,1);(5,1);(9,2);(13,1)]);
   Never (Lf [(0,2);(5,1);(9,1);(12,1);(14,2)]);
   Never (Lf [(0,1);(1,1);(4,1);(5,1);(6,1);(13,1)]);
   Never (Nd 1 (Lf [(16,1);(26,1)]) (Nd 2 (Lf [(12,1);(28,1)]) (Lf [(14,1);(27,1);(29,1)])));
   Never (Lf [(1,1);(4,1);(5,1);(9,1);(13,1)]);
   Never (Lf [(1,1);(9,1);(13,1)]);
   Never (Lf [(7,1);(8,1);(14,1)]);
   Never (Lf [(3,1);(5,1);(13,1)]);
   Never (Nd 2 (Lf [(16,1);(26,1)]) (Lf [(15,1);(27,1)]));
   Never (Lf [(3,1);(13,1)]);
   Never (Lf [(0,2);(5,1);(14,1)])].
Definition certs_01_9 : list cert :=
  [Never (Lf [(5,1);(14,1)]);
   Never (Lf [(1,1);(2,2);(4,1);(5,1);(9,1);(13,1)]);
   Never (Nd 4 (Lf [(17,1);(26,1)]) (Lf [(15,1);(27,1)]));
   Never (Lf [(1,1);(2,2);(5,1);(9,1);(13,1)]);
   Never (Lf [(1,1);(2,2);(5,1);(9,1);(13,1)]);
   Never (Lf [(0,1);(8,1);(14,1)]);
   Never (Lf [(1,1);(2,2);(4,1);(5,1);(9,1);(13,1)]);
   Never (Lf [(4,1);(15,1)]);
   Never (Lf [(4,1);(15,1)]);
   Never (Lf [(3,1);(13,1)]);
   Never (Lf [(4,1);(5,1);(14,1)]);
   Never (Lf [(3,1);(5,1);(13,1)]);
   Never (Lf [(5,1);(15,1)]);
   Never (Lf [(1,1);(9,1);(13,1)]);
   Never (Lf [(1,1);(4,1);(5,1);(9,1);(13,1)]);
   Never (Lf [(4,1);(14,1)]);
   Never (Lf [(0,1);(1,1);(4,1);(5,1);(6,1);(13,1)]);
   Never (Lf [(4,1);(5,1);(15,1)]);
   Never (Lf [(2,2);(3,1);(5,1);(9,2);(13,1)]);
   Never (Lf [(0,1);(8,1);(14,1)]);
   Never (Lf [(1,1);(2,2);(9,1);(13,1)]);
   Never (Nd 3 (Lf [(2,1);(12,1);(26,1)]) (Lf [(14,1);(27,1)]));
   Never (Lf [(0,1);(5,1);(17,1)]);
   Never (Lf [(3,1);(4,1);(13,1)]);
   Never (Lf [(4,1);(5,1);(14,1)]);
   Never (Lf [(3,1);(13,1);(17,1);(18,1)]);
   Never (Nd 2 (Nd 4 (Lf [(18,1);(27,1)]) (Lf [(8,1);(16,1);(26,1);(28,1)])) (Lf [(0,1);(18,1);(27,1)]));
   Never (Lf [(3,1);(4,1);(9,2);(13,1)]);
   Never (Lf [(1,1);(4,1);(9,1);(13,1)]);
   Never (Lf [(4,1);(14,1)]);
   Never (Lf [(0,1);(5,1);(17,1)]);
   Never (Nd 1 (Lf [(7,1);(16,1);(26,1)]) (Lf [(2,2);(15,1);(16,2);(27,1)]));
   Never (Lf [(1,1);(2,2);(9,1);(14,1)]);
   Never (Lf [(1,1);(2,2);(3,1);(5,1);(9,1);(14,1)]);
   Never (Lf [(2,2);(3,1);(5,1);(9,2);(15,1)]);
   Never (Lf [(2,1);(3,1);(9,2);(12,1);(13,1)]);
   Never (Lf [(3,1);(4,1);(9,2);(13,1)]);
   Never (Lf [(2,2);(3,1);(5,1);(9,2);(14,1)]);
   Never (Lf [(9,1);(15,1);(16,1)]);
   Never (Lf [(3,1);(4,1);(13,1)]);
   Never (Lf [(0,1);(8,1);(13,1)]);
   Never (Lf [(1,1);(2,2);(5,1);(9,1);(13,1);(14,1)]);
   Never (Lf [(2,1);(7,1);(9,1);(11,1);(14,1)]);
   Never (Lf [(0,1);(1,1);(2,1);(5,1);(11,1);(13,1)]);
   Never (Lf [(5,1);(13,1)]);
   Never (Lf [(0,2);(5,1);(13,1)]);
   Never (Lf [(0,1);(1,2);(2,2);(5,1);(9,1);(12,1);(14,1)]);
   Never (Lf [(0,2);(1,2);(5,1);(9,1);(11,1);(13,2)]);
   Never (Lf [(1,1);(2,2);(9,1);(15,1)]);
   Never (Lf [(0,1);(1,2);(2,2);(6,2);(12,1);(13,1)]);
   Never (Lf [(1,1);(2,2);(9,1);(14,1)]);
   Never (Lf [(3,1);(13,1)]);
   Never (Lf [(0,1);(1,1);(5,1);(16,1)]);
   Never (Nd 3 (Lf [(2,1);(11,1);(26,1)]) (Lf [(13,1);(27,1)]));
   Never (Lf [(0,1);(1,1);(2,1);(3,1);(9,1);(11,1);(13,1)]);
   Never (Lf [(0,2);(5,1);(13,1);(14,1)]);
   Never (Lf [(3,1);(5,1);(14,1)]);
   Never (Lf [(0,1);(1,1);(2,2);(5,1);(9,1);(11,1);(13,1)]);
   Never (Lf [(1,2);(2,2);(3,1);(5,1);(14,1);(15,1)]);
   Never (Lf [(1,1);(2,2);(5,1);(9,1);(13,1)]);
   Never (Lf [(1,1);(2,2);(5,1);(9,1);(13,1)]);
   Never (Lf [(2,1);(9,1);(14,1);(18,1)]);
   Never (Lf [(0,1);(1,1);(2,2);(5,1);(9,1);(11,1);(13,1)]);
   Never (Nd 1 (Lf [(1,1);(18,1);(26,1)]) (Lf [(2,1);(9,1);(11,2);(13,1);(18,1);(27,1)]))].
Definition certs_01_10 : list cert :=
  [Never (Lf [(0,1);(5,1);(11,1);(13,1);(17,1);(18,1)]);
   Never (Lf [(0,1);(1,1);(2,1);(3,1);(9,1);(11,1);(13,1)]);
   Never (Lf [(3,1);(5,1);(9,1);(12,1);(14,1)]);
   Never (Lf [(0,1);(3,1);(5,1);(7,1);(14,1)]);
   Never (Lf [(3,1);(13,1)]);
   Never (Lf [(3,1);(5,1);(15,1)]);
   Never (Lf [(0,1);(1,2);(2,2);(6,2);(12,1);(13,1)]);
   Never (Lf [(0,1);(1,1);(2,1);(5,1);(9,1);(12,1);(14,1)]);
   Never (Lf [(0,2);(1,2);(5,1);(9,1);(11,1);(13,2)]);
   Never (Lf [(5,1);(11,1);(12,2);(15,1);(16,1);(17,1)]);
   Never (Lf [(0,2);(5,1);(13,1)]);
   Never (Lf [(5,1);(13,1)]);
   Never (Lf [(0,1);(1,1);(2,1);(5,1);(11,1);(13,1)]);
   Never (Lf [(1,1);(2,1);(3,1);(11,1);(14,1);(16,1)]);
   Never (Nd 1 (Lf [(1,1);(7,1);(11,1);(26,1)]) (Lf [(1,2);(2,2);(11,2);(13,1);(27,1)]));
   Never (Lf [(0,1);(8,1);(13,1)]);
   Never (Lf [(3,1);(4,1);(13,1)]);
   Never (Lf [(0,1);(3,1);(12,1);(14,1)]);
   Never (Lf [(1,1);(15,1);(16,1)]);
   Never (Lf [(3,1);(4,1);(9,2);(13,1)]);
   Never (Lf [(2,1);(3,1);(9,2);(12,1);(13,1)]);
   Never (Lf [(0,1);(3,1);(5,1);(7,1);(14,1)]);
   Never (Nd 3 (Lf [(11,1);(12,1);(26,1)]) (Lf [(1,1);(12,1);(13,1);(17,2);(27,1)]));
   Never (Lf [(1,1);(6,1);(12,1);(14,1);(16,2)]);
   Never (Lf [(3,1);(4,1);(9,2);(15,1)]);
   Never (Lf [(4,1);(13,1);(14,1)]);
   Never (Lf [(1,1);(4,1);(9,1);(13,1)]);
   Never (Lf [(0,1);(1,2);(2,1);(4,1);(9,1);(11,1);(13,1)]);
   Never (Lf [(0,1);(2,1);(3,1);(9,1);(12,1);(14,1)]);
   Never (Lf [(1,1);(2,2);(3,1);(5,1);(9,1);(13,1)]);
   Never (Lf [(9,1);(15,1);(17,1)]);
   Never (Lf [(2,2);(3,1);(5,1);(9,2);(13,1)]);
   Never (Lf [(3,1);(4,1);(14,1)]);
   Never (Lf [(0,1);(8,1);(15,1)]);
   Never (Lf [(0,1);(3,1);(9,1);(11,1);(13,1)]);
   Never (Lf [(3,1);(8,1);(9,1);(11,1);(13,1)]);
   Never (Lf [(0,1);(1,1);(4,1);(6,1);(12,2);(14,1)]);
   Never (Lf [(4,1);(5,1);(13,1)]);
   Never (Lf [(1,1);(9,1);(15,1)]);
   Never (Lf [(1,1);(4,1);(5,1);(9,1);(13,1)]);
   Never (Lf [(3,1);(4,1);(9,2);(14,1)]);
   Never (Lf [(0,1);(3,1);(11,1);(13,1)]);
   Never (Lf [(1,1);(9,1);(14,1)]);
   Never (Lf [(3,1);(13,1)]);
   Never (Lf [(2,1);(7,1);(9,1);(14,1);(16,1)]);
   Never (Lf [(4,1);(13,1)]);
   Never (Nd 0 (Lf [(17,1);(26,1)]) (Nd 4 (Lf [(11,1);(12,1);(28,1)]) (Lf [(13,1);(27,1);(29,1)])));
   Never (Lf [(0,1);(1,1);(2,1);(4,1);(9,1);(11,1);(13,1)]);
   Never (Lf [(0,1);(1,1);(2,1);(4,1);(9,1);(11,1);(13,1)]);
   Never (Lf [(1,1);(3,1);(4,1);(9,1);(14,1)]);
   Never (Lf [(4,1);(13,1)]);
   Never (Lf [(3,1);(4,1);(15,1)]);
   Never (Lf [(3,1);(13,1)]);
   Never (Lf [(4,1);(11,1);(14,1);(16,1);(18,1)]);
   Never (Lf [(0,1);(3,1);(11,1);(13,1)]);
   Never (Nd 4 (Lf [(11,1);(26,1)]) (Lf [(13,1);(17,1);(18,1);(27,1)]));
   Never (Lf [(1,1);(4,1);(5,1);(9,1);(13,1)]);
   Never (Lf [(0,1);(1,1);(4,1);(12,1);(14,1)]);
   Never (Lf [(4,1);(5,1);(13,1)]);
   Never (Lf [(2,1);(15,1);(16,1)]);
   Never (Lf [(3,1);(8,1);(9,1);(11,1);(13,1)]);
   Never (Lf [(0,1);(3,1);(9,1);(11,1);(13,1)]);
   Never (Lf [(1,1);(9,1);(14,1)]);
   Never (Nd 4 (Lf [(1,1);(11,1);(26,1)]) (Lf [(13,1);(27,1)]))].
Definition certs_01_11 : list cert :=
  [Never (Lf [(2,2);(3,1);(5,1);(9,2);(13,1)]);
   Never (Lf [(0,1);(1,1);(2,1);(3,1);(9,1);(12,1);(14,1)]);
   Never (Lf [(1,1);(2,2);(3,1);(5,1);(9,1);(13,1)]);
   Never (Lf [(1,2);(2,1);(3,1);(11,1);(12,2);(15,1)]);
   Never (Lf [(0,1);(1,2);(2,1);(4,1);(9,1);(11,1);(13,1)]);
   Never (Lf [(1,1);(4,1);(9,1);(13,1)]);
   Never (Nd 0 (Lf [(2,1);(9,1);(12,1);(26,1)]) (Nd 4 (Lf [(1,1);(11,1);(12,1);(28,1)]) (Lf [(1,2);(2,1);(12,1);(13,1);(27,1);(29,1)])));
   Never (Lf [(1,1);(2,1);(12,1);(14,1);(16,1)]);
   Never (Lf [(2,2);(4,1);(5,1);(13,2);(14,1)]);
   Never (Lf [(1,1);(4,1);(9,1);(14,1)]);
   Never (Lf [(0,1);(8,1);(13,1)]);
   Never (Lf [(3,1);(4,1);(9,2);(15,1)]);
   Never (Lf [(1,2);(3,1);(4,1);(13,2);(14,1)]);
   Never (Lf [(2,1);(3,1);(7,1);(9,1);(12,1);(14,1)]);
   Never (Lf [(2,2);(3,1);(5,1);(9,2);(15,1)]);
   Never (Lf [(1,1);(2,2);(3,1);(5,1);(9,1);(13,1)]);
   Never (Lf [(1,1);(2,2);(9,1);(13,1)]);
   Never (Lf [(3,1);(4,1);(9,2);(14,1)]);
   Never (Lf [(5,1);(13,1)]);
   Never (Lf [(7,1);(8,1);(15,1)]);
   Never (Lf [(0,2);(5,1);(13,1)]);
   Never (Lf [(0,1);(7,1);(13,1)]);
   Never (Lf [(0,2);(5,1);(9,1);(12,1);(13,2);(14,2)]);
   Never (Lf [(0,1);(1,1);(4,1);(5,1);(6,1);(13,1)]);
   Never (Lf [(1,1);(2,2);(5,1);(9,1);(14,1)]);
   Never (Lf [(1,1);(4,1);(5,1);(9,1);(13,1)]);
   Never (Lf [(1,1);(9,1);(13,1)]);
   Never (Lf [(1,2);(2,2);(4,1);(5,1);(9,2);(14,1)]);
   Never (Lf [(3,1);(13,1)]);
   Never (Lf [(1,1);(4,1);(9,1);(15,1)]);
   Never (Lf [(1,1);(4,1);(9,1);(15,1)]);
   Never (Lf [(1,1);(3,1);(4,1);(9,1);(13,1)]);
   Never (Lf [(2,2);(3,1);(5,1);(9,2);(14,1)]);
   Never (Lf [(4,1);(13,1)]);
   Never (Lf [(1,1);(2,2);(5,1);(9,1);(15,1)]);
   Never (Lf [(1,1);(2,2);(4,1);(5,1);(9,1);(13,1)]);
   Never (Lf [(1,1);(2,2);(4,1);(5,1);(9,1);(13,1)]);
   Never (Lf [(1,1);(4,1);(9,1);(14,1)]);
   Never (Lf [(4,1);(13,1)]);
   Never (Nd 3 (Lf [(1,1);(2,1);(16,1);(26,1)]) (Lf [(1,1);(7,2);(11,1);(15,1);(16,2);(27,1)]));
   Never (Lf [(1,1);(3,1);(4,1);(9,1);(13,1)]);
   Never (Lf [(7,1);(8,1);(14,1)]);
   Never (Lf [(0,1);(1,1);(5,1);(16,1)]);
   Never (Lf [(3,1);(13,1)]);
   Never (Nd 0 (Lf [(2,1);(6,1);(17,1);(26,1)]) (Nd 1 (Lf [(9,1);(11,1);(28,1)]) (Lf [(15,1);(16,2);(27,1);(29,1)])));
   Never (Lf [(1,1);(9,1);(13,1)]);
   Never (Lf [(1,1);(4,1);(5,1);(9,1);(13,1)]);
   Never (Nd 0 (Lf [(2,1);(6,1);(18,1);(26,1)]) (Lf [(12,2);(14,1);(16,2);(27,1)]));
   Never (Lf [(0,1);(1,1);(4,1);(5,1);(6,1);(13,1)]);
   Never (Lf [(5,1);(13,1);(17,1);(18,1)]);
   Never (Lf [(0,1);(7,1);(13,1)]);
   Never (Lf [(0,2);(5,1);(13,1)]);
   Never (Lf [(1,1);(2,2);(5,1);(9,1);(14,1)]);
   Never (Lf [(5,1);(13,1)]);
   Never (Nd 0 (Lf [(2,1);(9,1);(11,1);(26,1)]) (Nd 4 (Lf [(16,1);(28,1)]) (Lf [(1,2);(2,1);(11,1);(15,1);(27,1);(29,1)])));
   Never (Lf [(1,1);(2,2);(9,1);(13,1)]);
   Never (Lf [(1,1);(2,2);(3,1);(5,1);(9,1);(13,1)]);
   Never (Lf [(1,1);(12,1);(14,1);(16,1)]);
   Never (Nd 1 (Lf [(1,1);(7,1);(12,1);(26,1)]) (Lf [(1,2);(2,2);(12,2);(14,1);(27,1)]));
   Never (Lf [(1,1);(11,1);(12,1);(13,1);(17,1)]);
   Never (Lf [(2,2);(3,1);(5,1);(9,2);(14,1)]);
   Never (Lf [(0,1);(8,1);(13,1)]);
   Never (Nd 4 (Lf [(12,1);(26,1)]) (Lf [(2,1);(11,1);(12,1);(14,1);(16,1);(27,1)]));
   Never (Lf [(1,1);(2,1);(4,1);(12,1);(13,1);(17,2)])].
Definition certs_01 : list cert := certs_01_0 ++ certs_01_1 ++ certs_01_2 ++ certs_01_3 ++ certs_01_4 ++ certs_01_5 ++ certs_01_6 ++ certs_01_7 ++ certs_01_8 ++ certs_01_9 ++ certs_01_10 ++ certs_01_11.
Definition rows_11 : list (option tree) :=
  [Some (Lf [(0,2);(1,2);(2,1);(3,1);(4,1);(5,1);(11,1)]);
   Some (Lf [(0,1);(1,1);(5,1);(11,1)]);
   Some (Lf [(1,1);(2,1);(5,1);(6,1);(7,1);(11,1)]);
   Some (Lf [(0,1);(1,1);(2,1);(4,1);(11,1)]);
   None;
   None;
   Some (Lf [(1,1);(2,1);(4,1);(6,1);(8,1);(11,1)]);
   None;
   Some (Lf [(1,2);(2,1);(3,1);(7,1);(8,1);(11,1)]);
   Some (Lf [(0,1);(1,2);(2,1);(3,1);(11,1)]);
   None;
   None;
   None;
   Some (Lf [(0,1);(10,1)]);
   None;
   None;
   None;
   Some (Lf [(0,1);(1,2);(2,1);(3,1);(11,1)]);
   Some (Lf [(1,2);(2,1);(3,1);(7,1);(8,1);(11,1)]);
   None;
   Some (Lf [(1,1);(2,1);(4,1);(6,1);(8,1);(11,1)]);
   None;
   None;
   Some (Lf [(0,1);(1,1);(2,1);(4,1);(11,1)]);
   Some (Lf [(1,1);(2,1);(5,1);(6,1);(7,1);(11,1)]);
   Some (Lf [(0,1);(1,1);(5,1);(11,1)]);
   Some (Lf [(0,2);(1,2);(2,1);(3,1);(4,1);(5,1);(11,1)])].
Definition rows_12 : list (option tree) :=
  [Some (Lf [(0,2);(1,1);(2,1);(3,1);(4,1);(5,1);(11,1)]);
   Some (Lf [(0,1);(5,1);(11,1)]);
   Some (Lf [(2,1);(5,1);(6,1);(7,1);(11,1)]);
   Some (Lf [(0,1);(2,1);(4,1);(11,1)]);
   None;
   None;
   Some (Lf [(2,1);(4,1);(6,1);(8,1);(11,1)]);
   None;
   Some (Lf [(1,1);(2,1);(3,1);(7,1);(8,1);(11,1)]);
   Some (Lf [(0,1);(1,1);(2,1);(3,1);(11,1)]);
   None;
   None;
   None;
   Some (Lf [(0,1);(1,1);(10,1)]);
   None;
   None;
   None;
   Some (Lf [(0,1);(1,1);(2,1);(3,1);(11,1)]);
   Some (Lf [(1,1);(2,1);(3,1);(7,1);(8,1);(11,1)]);
   None;
   Some (Lf [(2,1);(4,1);(6,1);(8,1);(11,1)]);
   None;
   None;
   Some (Lf [(0,1);(2,1);(4,1);(11,1)]);
   Some (Lf [(2,1);(5,1);(6,1);(7,1);(11,1)]);
   Some (Lf [(0,1);(5,1);(11,1)]);
   Some (Lf [(0,2);(1,1);(2,1);(3,1);(4,1);(5,1);(11,1)])].
Definition rows_13 : list (option tree) :=
  [Some (Lf [(0,2);(1,1);(3,1);(4,1);(5,1);(11,1)]);
   None;
   Some (Lf [(5,1);(6,1);(7,1);(11,1)]);
   Some (Lf [(0,1);(4,1);(11,1)]);
   None;
   None;
   Some (Lf [(4,1);(6,1);(8,1);(11,1)]);
   None;
   Some (Lf [(1,1);(3,1);(7,1);(8,1);(11,1)]);
   Some (Lf [(0,1);(1,1);(3,1);(11,1)]);
   None;
   None;
   None;
   Some (Lf [(0,1);(1,1);(2,1);(10,1)]);
   None;
   None;
   None;
   Some (Lf [(0,1);(1,1);(3,1);(11,1)]);
   Some (Lf [(1,1);(3,1);(7,1);(8,1);(11,1)]);
   None;
   Some (Lf [(4,1);(6,1);(8,1);(11,1)]);
   None;
   None;
   Some (Lf [(0,1);(4,1);(11,1)]);
   Some (Lf [(5,1);(6,1);(7,1);(11,1)]);
   None;
   Some (Lf [(0,2);(1,1);(3,1);(4,1);(5,1);(11,1)])].
Definition certs_10_0 : list cert :=
  [Never (Lf [(3,1);(7,1);(8,1);(13,1)]);
   Never (Lf [(0,1);(7,1);(15,1)]);
   Never (Lf [(0,1);(7,1);(15,1)]);
   Never (Lf [(0,1);(7,1);(15,1)]);
   Never (Lf [(4,1);(14,1)]);
   Never (Lf [(1,1);(4,1);(6,1);(8,1);(13,1)]);
   Never (Lf [(0,1);(8,1);(15,1)]);
   Never (Lf [(0,1);(7,1);(14,1)]);
   Never (Lf [(0,1);(1,1);(6,1);(13,1)]);
   Never (Lf [(5,1);(15,1)]);
   Never (Lf [(1,1);(2,2);(5,1);(6,1);(7,1);(13,1)]);
   Never (Lf [(0,1);(8,1);(14,1)]);
   Never (Lf [(0,1);(1,1);(2,2);(6,1);(13,1)]);
   Never (Nd 1 (Lf [(6,1);(12,1);(26,1)]) (Nd 6 (Lf [(2,1);(6,1);(28,1)]) (Lf [(5,1);(27,1);(29,1)])));
   Never (Lf [(0,1);(5,1);(17,1)]);
   Never (Lf [(3,1);(4,1);(13,1)]);
   Never (Lf [(3,1);(13,1)]);
   Never (Lf [(4,1);(15,1)]);
   Never (Lf [(4,1);(15,1)]);
   Never (Lf [(0,1);(8,1);(14,1)]);
   Never (Nd 7 (Lf [(2,1);(6,1);(26,1)]) (Lf [(4,1);(27,1)]));
   Never (Lf [(3,1);(13,1)]);
   Never (Lf [(3,1);(4,1);(13,1)]);
   Never (Lf [(0,2);(5,1);(14,1)]);
   Never (Lf [(5,1);(14,1)]);
   Never (Lf [(0,1);(1,1);(2,2);(6,1);(13,1)]);
   Never (Nd 6 (Lf [(2,1);(6,1);(17,1);(26,1)]) (Lf [(4,1);(8,2);(27,1)]));
   Never (Lf [(1,1);(2,2);(5,1);(6,1);(7,1);(13,1)]);
   Never (Lf [(4,1);(14,1)]);
   Never (Lf [(0,1);(1,1);(6,1);(13,1)]);
   Never (Nd 8 (Lf [(7,1);(26,1)]) (Lf [(5,1);(27,1)]));
   Never (Lf [(0,1);(7,1);(14,1)]);
   Never (Lf [(1,1);(4,1);(6,1);(8,1);(13,1)]);
   Never (Nd 9 (Lf [(8,1);(26,1)]) (Lf [(4,1);(27,1)]));
   Never (Lf [(0,2);(5,1);(14,1)]);
   Never (Lf [(5,1);(14,1)]);
   Never (Nd 1 (Lf [(6,1);(19,1);(26,1)]) (Nd 7 (Lf [(2,1);(12,1);(27,1);(28,1)]) (Lf [(0,1);(7,1);(29,1)])));
   Never (Lf [(3,1);(7,1);(8,1);(13,1)]);
   Never (Lf [(0,2);(5,1);(13,1)]);
   Never (Lf [(5,1);(13,1)]);
   Never (Lf [(1,1);(2,2);(5,1);(6,1);(7,1);(14,1)]);
   Never (Lf [(0,1);(7,1);(15,1)]);
   Never (Lf [(0,1);(8,1);(13,1)]);
   Never (Lf [(3,1);(7,1);(8,1);(15,1)]);
   Never (Lf [(3,1);(7,1);(8,1);(15,1)]);
   Never (Lf [(0,1);(1,1);(6,1);(13,1)]);
   Never (Lf [(0,1);(1,2);(2,2);(7,1);(14,1)]);
   Never (Lf [(0,1);(1,2);(8,1);(13,1)]);
   Never (Nd 6 (Lf [(1,1);(26,1)]) (Lf [(5,1);(6,1);(7,1);(12,1);(27,1)]));
   Never (Lf [(0,1);(1,1);(5,1);(16,1)]);
   Never (Lf [(0,1);(1,1);(2,2);(6,1);(13,1)]);
   Never (Lf [(1,1);(2,2);(5,1);(6,1);(7,1);(15,1)]);
   Never (Lf [(1,1);(2,2);(5,1);(6,1);(7,1);(15,1)]);
   Never (Lf [(3,1);(4,1);(13,1)]);
   Never (Lf [(3,1);(13,1)]);
   Never (Lf [(1,1);(2,2);(5,1);(6,1);(7,1);(14,1)]);
   Never (Nd 9 (Lf [(1,1);(2,1);(26,1)]) (Lf [(3,1);(7,1);(8,1);(27,1)]));
   Never (Lf [(3,1);(7,1);(8,1);(14,1)]);
   Never (Lf [(0,1);(1,2);(2,2);(7,1);(15,1)]);
   Never (Lf [(3,1);(13,1)]);
   Never (Lf [(3,1);(4,1);(13,1)]);
   Never (Lf [(0,1);(7,1);(14,1)]);
   Never (Nd 5 (Lf [(2,1);(7,1);(12,1);(26,1)]) (Lf [(5,1);(6,2);(27,1)]));
   Never (Lf [(0,1);(1,1);(2,2);(6,1);(13,1)])].
Definition certs_10_1 : list cert :=
  [Never (Lf [(0,1);(7,1);(14,1);(15,1)]);
   Never (Lf [(0,1);(7,1);(14,1)]);
   Never (Lf [(0,1);(1,2);(8,1);(13,1)]);
   Never (Nd 6 (Lf [(7,1);(11,1);(26,1)]) (Lf [(1,2);(2,2);(3,1);(7,1);(8,1);(27,1)]));
   Never (Lf [(0,1);(1,1);(6,1);(13,1)]);
   Never (Lf [(0,1);(1,2);(2,2);(7,1);(14,1)]);
   Never (Nd 5 (Lf [(2,1);(7,1);(12,1);(26,1)]) (Lf [(1,2);(3,1);(8,2);(27,1)]));
   Never (Lf [(0,1);(8,1);(13,1)]);
   Never (Lf [(3,1);(7,1);(8,1);(14,1)]);
   Never (Nd 9 (Lf [(7,1);(11,1);(26,1)]) (Lf [(1,1);(2,2);(5,1);(6,1);(7,1);(27,1)]));
   Never (Lf [(5,1);(13,1)]);
   Never (Lf [(0,2);(5,1);(13,1)]);
   Never (Lf [(0,1);(7,1);(13,1)]);
   Never (Lf [(0,1);(8,1);(15,1)]);
   Never (Lf [(0,1);(8,1);(15,1)]);
   Never (Lf [(0,1);(1,2);(2,2);(7,1);(13,1)]);
   Never (Lf [(0,1);(1,2);(8,1);(14,1)]);
   Never (Lf [(3,1);(7,1);(8,1);(15,1)]);
   Never (Lf [(3,1);(7,1);(8,1);(14,1)]);
   Never (Lf [(0,1);(1,1);(6,1);(13,1)]);
   Never (Nd 0 (Lf [(18,1);(26,1)]) (Nd 4 (Lf [(11,1);(28,1)]) (Nd 5 (Lf [(8,1);(30,1)]) (Nd 9 (Lf [(1,1);(32,1)]) (Lf [(3,1);(31,1);(33,1)])))));
   Never (Lf [(0,1);(1,1);(2,2);(6,1);(13,1)]);
   Never (Lf [(0,1);(1,2);(8,1);(14,1)]);
   Never (Nd 8 (Lf [(2,1);(6,1);(12,1);(26,1)]) (Lf [(1,1);(4,1);(6,1);(8,1);(27,1)]));
   Never (Lf [(4,1);(13,1)]);
   Never (Lf [(3,1);(7,1);(8,1);(14,1)]);
   Never (Lf [(3,1);(13,1)]);
   Never (Nd 0 (Lf [(2,1);(6,1);(19,1);(26,1)]) (Nd 6 (Lf [(2,1);(16,1);(28,1)]) (Lf [(1,1);(4,1);(6,1);(8,1);(27,1);(29,1)])));
   Never (Lf [(1,1);(4,1);(6,1);(8,1);(14,1)]);
   Never (Lf [(3,1);(13,1)]);
   Never (Nd 0 (Lf [(2,1);(7,1);(16,1);(26,1)]) (Nd 1 (Lf [(1,1);(7,1);(16,1);(28,1)]) (Nd 3 (Lf [(1,1);(2,1);(16,1);(30,1)]) (Nd 4 (Lf [(1,1);(7,1);(11,1);(16,1);(32,1)]) (Nd 5 (Lf [(1,1);(7,1);(8,1);(16,1);(34,1)]) (Nd 6 (Lf [(1,1);(2,1);(16,1);(36,1)]) (Lf [(1,2);(2,2);(3,1);(7,2);(35,1);(37,1)])))))));
   Never (Lf [(4,1);(13,1)]);
   Never (Lf [(0,1);(8,1);(14,1)]);
   Never (Lf [(1,1);(4,1);(6,1);(8,1);(15,1)]);
   Never (Lf [(0,1);(1,1);(2,2);(6,1);(13,1)]);
   Never (Lf [(0,1);(1,2);(8,1);(15,1)]);
   Never (Lf [(0,1);(1,1);(6,1);(13,1)]);
   Never (Lf [(0,1);(1,2);(8,1);(15,1)]);
   Never (Lf [(0,1);(8,1);(14,1)]);
   Never (Nd 8 (Lf [(1,1);(26,1)]) (Lf [(3,1);(7,1);(8,1);(27,1)]));
   Never (Lf [(0,1);(1,2);(2,2);(7,1);(13,1)]);
   Never (Nd 0 (Lf [(8,1);(11,1);(26,1)]) (Nd 5 (Lf [(1,1);(8,1);(28,1)]) (Lf [(4,1);(27,1);(29,1)])));
   Never (Lf [(1,1);(4,1);(6,1);(8,1);(14,1)]);
   Never (Lf [(0,1);(7,1);(13,1)]);
   Never (Lf [(4,1);(13,1)]);
   Never (Lf [(5,1);(15,1)]);
   Never (Lf [(5,1);(15,1)]);
   Never (Lf [(0,2);(1,2);(5,1);(14,1)]);
   Never (Lf [(0,1);(7,1);(13,1)]);
   Never (Lf [(3,1);(7,1);(8,1);(13,1)]);
   Never (Lf [(3,1);(14,1)]);
   Never (Nd 6 (Lf [(7,1);(17,1);(26,1)]) (Lf [(5,1);(6,2);(27,1)]));
   Never (Lf [(3,1);(14,1)]);
   Never (Lf [(1,1);(4,1);(6,1);(8,1);(13,1)]);
   Never (Nd 0 (Lf [(8,1);(18,1);(26,1)]) (Nd 3 (Lf [(19,1);(28,1)]) (Nd 4 (Lf [(1,1);(18,1);(30,1)]) (Nd 5 (Lf [(1,1);(18,1);(32,1)]) (Nd 9 (Lf [(1,1);(8,1);(34,1)]) (Lf [(3,1);(7,1);(8,1);(33,1);(35,1)]))))));
   Never (Lf [(1,1);(5,1);(6,1);(7,1);(13,1)]);
   Never (Lf [(5,1);(14,1)]);
   Never (Lf [(1,1);(2,2);(5,1);(6,1);(7,1);(13,1)]);
   Never (Lf [(0,1);(1,1);(6,1);(15,1)]);
   Never (Lf [(0,1);(1,2);(8,1);(14,1)]);
   Never (Lf [(0,1);(1,2);(2,2);(7,1);(13,1)]);
   Never (Lf [(3,1);(15,1)]);
   Never (Lf [(3,1);(15,1)]);
   Never (Lf [(0,2);(1,2);(5,1);(14,1)])].
Definition certs_10_2 : list cert :=
  [Never (Lf [(5,1);(14,1)]);
   Never (Lf [(0,1);(1,2);(2,2);(7,1);(13,1)]);
   Never (Nd 8 (Lf [(1,1);(8,1);(26,1)]) (Lf [(3,1);(27,1)]));
   Never (Lf [(0,1);(1,2);(8,1);(14,1)]);
   Never (Lf [(1,1);(2,2);(5,1);(6,1);(7,1);(13,1)]);
   Never (Nd 9 (Lf [(6,1);(26,1)]) (Lf [(5,1);(27,1)]));
   Never (Lf [(1,1);(5,1);(6,1);(7,1);(13,1)]);
   Never (Lf [(0,1);(1,2);(8,1);(15,1)]);
   Never (Lf [(1,1);(4,1);(6,1);(8,1);(13,1)]);
   Never (Lf [(0,1);(1,2);(8,1);(15,1)]);
   Never (Lf [(0,1);(1,1);(6,1);(14,1)]);
   Never (Nd 0 (Lf [(2,1);(16,1);(26,1)]) (Nd 1 (Lf [(1,1);(16,1);(28,1)]) (Nd 3 (Lf [(12,1);(30,1)]) (Nd 4 (Lf [(12,1);(29,1);(32,1)]) (Nd 5 (Lf [(1,1);(12,1);(16,1);(34,1)]) (Nd 6 (Lf [(7,1);(36,1)]) (Lf [(1,2);(2,2);(3,1);(7,1);(8,1);(35,1);(37,1)])))))));
   Never (Lf [(3,1);(7,1);(8,1);(13,1)]);
   Never (Lf [(0,1);(7,1);(13,1)]);
   Never (Lf [(0,1);(7,1);(13,1);(15,1)]);
   Never (Nd 5 (Lf [(1,1);(26,1)]) (Lf [(5,1);(6,1);(7,1);(11,1);(27,1)]));
   Never (Lf [(0,1);(1,1);(6,1);(14,1)]);
   Never (Lf [(4,1);(13,1)]);
   Never (Lf [(0,2);(5,1);(13,1)]);
   Never (Lf [(5,1);(13,1)]);
   Never (Lf [(4,1);(13,1)]);
   Never (Lf [(1,1);(4,1);(6,1);(8,1);(14,1)]);
   Never (Nd 0 (Lf [(2,1);(6,1);(11,1);(26,1)]) (Nd 1 (Lf [(1,1);(6,1);(11,1);(28,1)]) (Nd 6 (Lf [(6,1);(11,1);(16,1);(30,1)]) (Lf [(1,1);(2,2);(5,1);(6,1);(7,1);(29,1);(31,1)]))));
   Never (Lf [(0,1);(7,1);(13,1)]);
   Never (Lf [(0,1);(1,1);(6,1);(14,1)]);
   Never (Lf [(1,1);(2,2);(5,1);(6,1);(7,1);(15,1)]);
   Never (Lf [(0,1);(8,1);(13,1)]);
   Never (Lf [(0,1);(1,1);(6,1);(14,1)]);
   Never (Nd 8 (Lf [(2,1);(26,1)]) (Lf [(1,1);(4,1);(6,1);(8,1);(27,1)]));
   Never (Lf [(0,1);(1,2);(8,1);(13,1)]);
   Never (Lf [(0,1);(1,1);(6,1);(15,1)]);
   Never (Lf [(0,1);(1,1);(6,1);(15,1)]);
   Never (Lf [(0,1);(1,1);(6,1);(15,1)]);
   Never (Lf [(1,1);(4,1);(6,1);(8,1);(14,1)]);
   Never (Lf [(0,1);(1,2);(2,2);(7,1);(13,1)]);
   Never (Nd 0 (Lf [(2,1);(12,1);(26,1)]) (Nd 5 (Lf [(6,1);(28,1)]) (Lf [(1,1);(4,1);(8,1);(11,1);(27,1);(29,1)])));
   Never (Lf [(4,1);(11,1);(16,1);(18,1)]);
   Never (Lf [(1,1);(5,1);(6,1);(7,1);(14,1)]);
   Never (Lf [(0,1);(1,1);(2,2);(6,1);(15,1)]);
   Never (Lf [(0,1);(1,2);(2,2);(7,1);(13,1)]);
   Never (Lf [(0,1);(1,1);(2,2);(6,1);(15,1)]);
   Never (Lf [(1,1);(5,1);(6,1);(7,1);(14,1)]);
   Never (Nd 0 (Lf [(12,1);(26,1)]) (Nd 1 (Lf [(6,1);(11,1);(28,1)]) (Nd 5 (Lf [(2,1);(6,1);(30,1)]) (Lf [(5,1);(29,1);(31,1)]))));
   Never (Lf [(1,1);(2,2);(5,1);(6,1);(7,1);(14,1)]);
   Never (Lf [(0,1);(1,2);(8,1);(13,1)]);
   Never (Lf [(0,1);(1,1);(2,2);(6,1);(14,1)]);
   Never (Lf [(1,1);(4,1);(6,1);(8,1);(15,1)]);
   Never (Lf [(0,1);(8,1);(13,1)]);
   Never (Lf [(0,1);(1,1);(2,2);(6,1);(14,1)]);
   Never (Nd 8 (Lf [(7,1);(12,1);(26,1)]) (Lf [(1,1);(2,2);(5,1);(6,1);(7,1);(27,1)]));
   Never (Lf [(0,1);(7,1);(13,1)]);
   Never (Lf [(1,1);(2,2);(5,1);(6,1);(7,1);(14,1)]);
   Never (Nd 0 (Lf [(2,1);(6,1);(11,1);(26,1)]) (Nd 6 (Lf [(2,1);(6,1);(11,1);(16,1);(28,1)]) (Lf [(1,2);(4,1);(8,2);(27,1);(29,1)])));
   Never (Lf [(4,1);(13,1)]);
   Never (Lf [(5,1);(13,1)]);
   Never (Lf [(0,2);(5,1);(13,1)]);
   Never (Lf [(0,1);(8,1);(13,1)]);
   Never (Lf [(0,1);(1,1);(2,2);(6,1);(14,1)]);
   Never (Lf [(4,1);(15,1)]);
   Never (Lf [(4,1);(15,1)]);
   Never (Lf [(3,1);(7,1);(8,1);(13,1)]);
   Never (Lf [(0,1);(1,1);(2,2);(6,1);(14,1)]);
   Never (Nd 9 (Lf [(1,1);(2,1);(7,1);(26,1)]) (Lf [(3,1);(27,1)]));
   Never (Lf [(3,1);(17,1);(18,1)])].
Definition certs_10_3 : list cert :=
  [Never (Lf [(1,1);(4,1);(6,1);(8,1);(13,1)]);
   Never (Lf [(0,1);(1,2);(8,1);(13,1)]);
   Never (Lf [(0,1);(1,2);(2,2);(7,1);(14,1)]);
   Never (Nd 0 (Lf [(8,1);(12,1);(26,1)]) (Nd 6 (Lf [(1,1);(8,1);(28,1)]) (Lf [(4,1);(27,1);(29,1)])));
   Never (Lf [(0,2);(1,2);(5,1);(13,1)]);
   Never (Lf [(5,1);(13,1)]);
   Never (Lf [(3,1);(15,1)]);
   Never (Lf [(3,1);(15,1)]);
   Never (Lf [(1,1);(5,1);(6,1);(7,1);(13,1)]);
   Never (Lf [(4,1);(14,1)]);
   Never (Lf [(1,1);(2,2);(5,1);(6,1);(7,1);(13,1)]);
   Never (Nd 0 (Lf [(2,1);(6,1);(12,1);(19,1);(26,1)]) (Nd 5 (Lf [(2,1);(18,1);(28,1)]) (Lf [(1,1);(4,1);(6,1);(8,1);(27,1);(29,1)])));
   Never (Lf [(0,1);(1,1);(2,2);(6,1);(15,1)]);
   Never (Lf [(1,1);(2,2);(5,1);(6,1);(7,1);(13,1)]);
   Never (Lf [(0,1);(1,1);(2,2);(6,1);(15,1)]);
   Never (Lf [(1,1);(5,1);(6,1);(7,1);(13,1)]);
   Never (Nd 5 (Lf [(2,1);(26,1)]) (Lf [(1,2);(3,1);(7,1);(8,1);(27,1)]));
   Never (Lf [(0,1);(1,2);(2,2);(7,1);(14,1)]);
   Never (Lf [(5,1);(13,1)]);
   Never (Lf [(0,2);(1,2);(5,1);(13,1)]);
   Never (Lf [(4,1);(14,1)]);
   Never (Nd 6 (Lf [(1,1);(2,1);(11,1);(17,1);(26,1)]) (Lf [(1,2);(2,2);(3,1);(7,2);(27,1)]));
   Never (Lf [(0,1);(1,2);(8,1);(13,1)]);
   Never (Lf [(1,1);(4,1);(6,1);(8,1);(13,1)]);
   Never (Lf [(3,1);(4,1);(14,1)]);
   Never (Lf [(3,1);(14,1)]);
   Never (Lf [(0,1);(1,2);(2,2);(7,1);(15,1)]);
   Never (Lf [(3,1);(7,1);(8,1);(13,1)]);
   Never (Lf [(3,1);(4,1);(14,1)]);
   Never (Lf [(3,1);(14,1)]);
   Never (Nd 8 (Lf [(2,1);(6,1);(26,1)]) (Lf [(4,1);(27,1)]));
   Never (Lf [(0,1);(8,1);(13,1)]);
   Never (Lf [(0,2);(5,1);(13,1)]);
   Never (Lf [(5,1);(13,1)]);
   Never (Lf [(0,1);(1,1);(2,2);(6,1);(14,1)]);
   Never (Nd 5 (Lf [(1,1);(2,1);(26,1)]) (Lf [(2,1);(4,1);(6,1);(8,1);(11,1);(27,1)]));
   Never (Lf [(0,1);(2,2);(5,2);(6,2);(7,3);(13,2);(15,1)]);
   Never (Lf [(0,1);(1,2);(2,2);(7,1);(15,1)]);
   Never (Lf [(1,1);(2,2);(5,1);(6,1);(7,1);(13,1)]);
   Never (Lf [(0,1);(1,2);(2,2);(7,1);(15,1)]);
   Never (Lf [(0,1);(8,1);(13,1)]);
   Never (Lf [(3,1);(7,1);(8,1);(13,1)]);
   Never (Nd 0 (Lf [(16,1);(26,1)]) (Nd 1 (Lf [(11,1);(12,1);(28,1)]) (Nd 4 (Lf [(12,1);(30,1)]) (Nd 5 (Lf [(2,1);(12,1);(32,1)]) (Nd 6 (Lf [(8,1);(34,1)]) (Lf [(1,2);(3,1);(7,1);(8,1);(33,1);(35,1)]))))));
   Never (Lf [(0,1);(1,1);(2,2);(6,1);(14,1)]);
   Never (Lf [(0,1);(1,2);(8,1);(13,1)]);
   Never (Nd 8 (Lf [(1,1);(2,1);(7,1);(26,1)]) (Lf [(3,1);(27,1)]));
   Never (Lf [(4,1);(14,1)]);
   Never (Lf [(3,1);(4,1);(14,1)]);
   Never (Lf [(1,1);(4,1);(6,1);(8,1);(13,1)]);
   Never (Lf [(0,1);(1,1);(2,2);(6,1);(15,1)]);
   Never (Lf [(4,1);(14,1)]);
   Never (Lf [(3,1);(4,1);(14,1)]);
   Never (Lf [(4,1);(17,1);(18,1)]);
   Never (Nd 9 (Lf [(2,1);(6,1);(26,1)]) (Lf [(4,1);(27,1)]));
   Never (Lf [(0,1);(1,2);(2,2);(7,1);(14,1)]);
   Never (Lf [(1,1);(4,1);(6,1);(8,1);(13,1)]);
   Never (Lf [(3,1);(15,1)]);
   Never (Lf [(3,1);(15,1)]);
   Never (Lf [(0,1);(1,2);(2,2);(7,1);(14,1)]);
   Never (Lf [(0,1);(1,2);(8,1);(13,1)]);
   Never (Nd 6 (Lf [(2,1);(11,1);(17,1);(26,1)]) (Lf [(2,2);(4,1);(6,2);(27,1)]));
   Never (Lf [(3,1);(14,1)]);
   Never (Lf [(3,1);(7,1);(8,1);(13,1)]);
   Never (Lf [(0,1);(8,1);(13,1)])].
Definition certs_10_4 : list cert :=
  [Never (Nd 0 (Lf [(2,1);(7,1);(18,1);(26,1)]) (Nd 1 (Lf [(1,1);(7,1);(18,1);(28,1)]) (Nd 3 (Lf [(1,1);(2,1);(18,1);(30,1)]) (Nd 4 (Lf [(19,1);(32,1)]) (Nd 5 (Lf [(1,1);(2,1);(18,1);(34,1)]) (Nd 9 (Lf [(1,1);(2,1);(7,1);(36,1)]) (Lf [(3,1);(7,1);(8,1);(35,1);(37,1)])))))));
   Never (Lf [(1,1);(2,2);(5,1);(6,1);(7,1);(13,1)]);
   Never (Lf [(3,1);(14,1)]);
   Never (Lf [(0,2);(5,1);(13,1);(14,1)]);
   Never (Lf [(4,1);(15,1)]);
   Never (Lf [(4,1);(15,1)]);
   Never (Lf [(5,1);(13,1)]);
   Never (Lf [(0,2);(5,1);(13,1)]);
   Never (Lf [(0,1);(7,1);(13,1)]);
   Never (Lf [(0,1);(8,1);(13,1)]);
   Never (Nd 6 (Lf [(6,1);(11,1);(26,1)]) (Lf [(1,1);(2,2);(4,1);(6,1);(8,1);(27,1)]));
   Never (Lf [(0,1);(1,1);(6,1);(14,1)]);
   Never (Lf [(1,1);(5,1);(6,1);(7,1);(14,1)]);
   Never (Lf [(0,1);(1,2);(2,2);(7,1);(13,1)]);
   Never (Lf [(0,1);(1,1);(6,1);(14,1)]);
   Never (Nd 5 (Lf [(1,1);(2,1);(6,1);(12,1);(26,1)]) (Lf [(5,1);(7,2);(27,1)]));
   Never (Lf [(1,1);(4,1);(6,1);(8,1);(15,1)]);
   Never (Lf [(0,1);(1,2);(8,1);(13,1)]);
   Never (Lf [(1,1);(4,1);(6,1);(8,1);(15,1)]);
   Never (Lf [(0,2);(1,2);(5,1);(13,1)]);
   Never (Lf [(5,1);(13,1)]);
   Never (Nd 9 (Lf [(6,1);(11,1);(26,1)]) (Lf [(1,1);(2,2);(5,1);(6,1);(7,1);(27,1)]));
   Never (Lf [(1,1);(4,1);(6,1);(8,1);(14,1)]);
   Never (Lf [(3,1);(4,1);(13,1)]);
   Never (Lf [(4,1);(13,1)]);
   Never (Lf [(0,1);(1,1);(2,2);(6,1);(15,1)]);
   Never (Lf [(1,1);(4,1);(6,1);(8,1);(14,1)]);
   Never (Nd 9 (Lf [(2,1);(26,1)]) (Lf [(1,1);(4,1);(6,1);(8,1);(27,1)]));
   Never (Lf [(1,1);(2,2);(5,1);(6,1);(7,1);(14,1)]);
   Never (Lf [(4,1);(13,1)]);
   Never (Lf [(3,1);(4,1);(13,1)]);
   Never (Lf [(0,1);(1,1);(6,1);(15,1)]);
   Never (Lf [(1,1);(2,2);(5,1);(6,1);(7,1);(14,1)]);
   Never (Lf [(5,1);(13,1)]);
   Never (Lf [(0,2);(1,2);(5,1);(13,1)]);
   Never (Nd 5 (Lf [(1,1);(2,1);(6,1);(12,1);(26,1)]) (Lf [(4,1);(8,2);(27,1)]));
   Never (Lf [(0,1);(1,2);(8,1);(13,1)]);
   Never (Lf [(0,1);(1,1);(2,2);(6,1);(14,1)]);
   Never (Lf [(1,1);(2,2);(5,1);(6,1);(7,1);(15,1)]);
   Never (Lf [(1,1);(2,2);(5,1);(6,1);(7,1);(15,1)]);
   Never (Lf [(0,1);(1,2);(2,2);(7,1);(13,1)]);
   Never (Lf [(0,1);(5,1);(16,1)]);
   Never (Nd 6 (Lf [(2,1);(6,1);(11,1);(26,1)]) (Lf [(1,1);(5,1);(6,1);(7,1);(27,1)]));
   Never (Lf [(0,1);(1,1);(2,2);(6,1);(14,1)]);
   Never (Lf [(0,1);(8,1);(13,1)]);
   Never (Lf [(0,1);(7,1);(13,1)]);
   Never (Lf [(0,1);(7,1);(13,1)]);
   Never (Nd 8 (Lf [(6,1);(26,1)]) (Lf [(5,1);(27,1)]));
   Never (Lf [(3,1);(14,1)]);
   Never (Lf [(1,1);(2,2);(5,1);(6,1);(7,1);(13,1)]);
   Never (Lf [(0,1);(1,2);(2,2);(7,1);(13,1)]);
   Never (Nd 6 (Lf [(1,1);(2,1);(7,1);(17,1);(26,1)]) (Lf [(1,2);(3,1);(8,2);(27,1)]));
   Never (Lf [(5,1);(14,1)]);
   Never (Lf [(0,2);(1,2);(5,1);(14,1)]);
   Never (Lf [(3,1);(7,1);(8,1);(13,1)]);
   Never (Lf [(0,1);(1,2);(8,1);(15,1)]);
   Never (Lf [(3,1);(14,1)]);
   Never (Lf [(1,1);(4,1);(6,1);(8,1);(13,1)]);
   Never (Nd 0 (Lf [(2,1);(6,1);(12,1);(19,1);(26,1)]) (Nd 1 (Lf [(1,1);(7,1);(19,1);(28,1)]) (Nd 5 (Lf [(1,1);(7,1);(18,1);(19,1);(30,1)]) (Lf [(2,2);(5,1);(6,2);(29,1);(31,1)]))));
   Never (Lf [(5,1);(14,1)]);
   Never (Lf [(0,2);(1,2);(5,1);(14,1)]);
   Never (Lf [(3,1);(4,1);(13,1)]);
   Never (Lf [(4,1);(13,1)]);
   Never (Nd 5 (Lf [(1,1);(7,1);(16,1);(26,1)]) (Lf [(1,2);(2,2);(3,1);(7,1);(8,1);(27,1)]))].
Definition certs_10_5 : list cert :=
  [Never (Lf [(0,1);(1,2);(8,1);(14,1)]);
   Never (Lf [(3,1);(15,1)]);
   Never (Lf [(3,1);(15,1)]);
   Never (Lf [(4,1);(13,1)]);
   Never (Lf [(3,1);(4,1);(13,1)]);
   Never (Lf [(0,1);(1,1);(6,1);(15,1)]);
   Never (Lf [(0,1);(1,1);(6,1);(15,1)]);
   Never (Lf [(0,1);(1,1);(6,1);(15,1)]);
   Never (Lf [(1,1);(4,1);(6,1);(8,1);(13,1)]);
   Never (Nd 9 (Lf [(1,1);(8,1);(26,1)]) (Lf [(3,1);(27,1)]));
   Never (Lf [(0,1);(1,1);(6,1);(14,1)]);
   Never (Lf [(3,1);(7,1);(8,1);(13,1)]);
   Never (Lf [(0,1);(1,1);(5,1);(17,1)]);
   Never (Nd 0 (Lf [(2,1);(7,1);(12,1);(26,1)]) (Nd 1 (Lf [(1,1);(7,1);(12,1);(28,1)]) (Nd 6 (Lf [(1,1);(2,1);(7,1);(30,1)]) (Lf [(2,1);(5,1);(6,1);(12,1);(29,1);(31,1)]))));
   Never (Lf [(0,1);(1,2);(8,1);(14,1)]);
   Never (Lf [(0,1);(1,2);(2,2);(7,1);(13,1)]);
   Never (Lf [(1,1);(2,2);(5,1);(6,1);(7,1);(13,1)]);
   Never (Lf [(5,1);(15,1)]);
   Never (Lf [(0,1);(1,1);(6,1);(14,1)]);
   Never (Lf [(0,1);(7,1);(13,1)]);
   Never (Lf [(4,1);(13,1)]);
   Never (Nd 9 (Lf [(8,1);(11,1);(26,1)]) (Lf [(1,1);(4,1);(6,1);(8,1);(27,1)]));
   Never (Lf [(3,1);(7,1);(8,1);(14,1)]);
   Never (Lf [(0,1);(7,1);(13,1)]);
   Never (Lf [(0,1);(1,2);(8,1);(14,1)]);
   Never (Nd 5 (Lf [(1,1);(8,1);(12,1);(16,1);(26,1)]) (Lf [(1,2);(2,2);(3,1);(7,2);(27,1)]));
   Never (Lf [(3,1);(13,1)]);
   Never (Lf [(0,1);(1,2);(8,1);(15,1)]);
   Never (Lf [(3,1);(7,1);(8,1);(14,1)]);
   Never (Lf [(1,1);(4,1);(6,1);(8,1);(15,1)]);
   Never (Lf [(0,1);(1,1);(6,1);(13,1)]);
   Never (Lf [(1,1);(4,1);(6,1);(8,1);(15,1)]);
   Never (Lf [(0,1);(1,1);(2,2);(6,1);(13,1)]);
   Never (Nd 6 (Lf [(2,1);(26,1)]) (Lf [(1,2);(3,1);(7,1);(8,1);(27,1)]));
   Never (Lf [(0,1);(1,2);(2,2);(7,1);(13,1)]);
   Never (Lf [(0,1);(8,1);(14,1)]);
   Never (Nd 6 (Lf [(1,1);(2,1);(26,1)]) (Lf [(2,1);(4,1);(6,1);(8,1);(12,1);(27,1)]));
   Never (Lf [(0,1);(1,2);(2,2);(7,1);(13,1)]);
   Never (Lf [(0,1);(1,2);(8,1);(14,1)]);
   Never (Lf [(0,1);(1,1);(2,2);(6,1);(13,1)]);
   Never (Nd 5 (Lf [(8,1);(12,1);(16,1);(26,1)]) (Lf [(2,2);(4,1);(6,2);(27,1)]));
   Never (Lf [(0,1);(1,1);(6,1);(13,1)]);
   Never (Lf [(0,1);(8,1);(14,1)]);
   Never (Nd 9 (Lf [(1,1);(26,1)]) (Lf [(3,1);(7,1);(8,1);(27,1)]));
   Never (Lf [(1,1);(4,1);(6,1);(8,1);(14,1)]);
   Never (Lf [(3,1);(13,1)]);
   Never (Lf [(3,1);(7,1);(8,1);(15,1)]);
   Never (Lf [(3,1);(7,1);(8,1);(15,1)]);
   Never (Lf [(0,1);(7,1);(13,1)]);
   Never (Lf [(0,1);(8,1);(15,1)]);
   Never (Lf [(1,1);(4,1);(6,1);(8,1);(14,1)]);
   Never (Lf [(4,1);(13,1)]);
   Never (Lf [(0,1);(8,1);(13,1)]);
   Never (Lf [(1,1);(2,2);(5,1);(6,1);(7,1);(14,1)]);
   Never (Nd 0 (Lf [(2,1);(7,1);(11,1);(26,1)]) (Nd 1 (Lf [(1,1);(7,1);(11,1);(28,1)]) (Nd 5 (Lf [(1,1);(2,1);(7,1);(30,1)]) (Lf [(2,1);(5,1);(6,1);(11,1);(29,1);(31,1)]))));
   Never (Lf [(2,1);(5,1);(6,1);(7,2);(11,1);(14,1)]);
   Never (Nd 8 (Lf [(1,1);(2,1);(26,1)]) (Lf [(3,1);(7,1);(8,1);(27,1)]));
   Never (Lf [(0,1);(1,2);(8,1);(13,1)]);
   Never (Lf [(0,1);(7,1);(14,1)]);
   Never (Lf [(0,2);(1,2);(5,1);(13,1)]);
   Never (Lf [(5,1);(13,1)]);
   Never (Nd 0 (Lf [(8,1);(16,1);(26,1)]) (Nd 1 (Lf [(7,1);(11,1);(28,1)]) (Nd 3 (Lf [(2,1);(11,1);(30,1)]) (Nd 4 (Lf [(1,1);(16,1);(32,1)]) (Nd 5 (Lf [(2,1);(7,1);(34,1)]) (Nd 6 (Lf [(1,1);(16,1);(36,1)]) (Lf [(1,2);(3,1);(8,2);(35,1);(37,1)])))))));
   Never (Lf [(3,1);(13,1)]);
   Never (Lf [(1,1);(2,2);(5,1);(6,1);(7,1);(14,1)])].
Definition certs_10_6 : list cert :=
  [Never (Nd 8 (Lf [(6,1);(12,1);(26,1)]) (Lf [(1,1);(2,2);(5,1);(6,1);(7,1);(27,1)]));
   Never (Lf [(0,1);(1,1);(6,1);(13,1)]);
   Never (Lf [(0,1);(1,2);(2,2);(7,1);(14,1)]);
   Never (Lf [(0,1);(1,2);(2,2);(7,1);(15,1)]);
   Never (Lf [(0,1);(1,1);(2,2);(6,1);(13,1)]);
   Never (Lf [(0,1);(1,2);(2,2);(7,1);(15,1)]);
   Never (Lf [(0,1);(2,2);(5,2);(6,2);(7,3);(14,2);(15,1)]);
   Never (Lf [(3,1);(11,1);(16,1);(18,1)]);
   Never (Nd 0 (Lf [(2,1);(18,1);(26,1)]) (Nd 1 (Lf [(12,1);(28,1)]) (Nd 3 (Lf [(11,1);(30,1)]) (Nd 4 (Lf [(11,1);(29,1);(32,1)]) (Nd 5 (Lf [(7,1);(34,1)]) (Nd 9 (Lf [(1,1);(2,1);(36,1)]) (Lf [(3,1);(35,1);(37,1)])))))));
   Never (Lf [(0,1);(1,1);(2,2);(6,1);(13,1)]);
   Never (Lf [(3,1);(7,1);(8,1);(14,1)]);
   Never (Lf [(1,1);(2,2);(5,1);(6,1);(7,1);(15,1)]);
   Never (Lf [(0,1);(1,1);(6,1);(13,1)]);
   Never (Lf [(0,1);(7,1);(14,1)]);
   Never (Nd 0 (Lf [(2,1);(6,1);(19,1);(26,1)]) (Nd 1 (Lf [(7,1);(11,1);(28,1)]) (Nd 6 (Lf [(7,1);(11,1);(16,1);(30,1)]) (Lf [(2,2);(5,1);(6,2);(29,1);(31,1)]))));
   Never (Lf [(3,1);(13,1)]);
   Never (Lf [(3,1);(7,1);(8,1);(14,1)]);
   Never (Lf [(5,1);(13,1)]);
   Never (Lf [(0,2);(1,2);(5,1);(13,1)]);
   Never (Lf [(3,1);(7,1);(8,1);(15,1)]);
   Never (Lf [(0,1);(1,2);(8,1);(13,1)]);
   Never (Lf [(0,1);(1,2);(2,2);(7,1);(14,1)]);
   Never (Lf [(0,1);(7,1);(15,1)]);
   Never (Lf [(0,1);(7,1);(15,1)]);
   Never (Lf [(0,1);(7,1);(15,1)]);
   Never (Lf [(0,1);(8,1);(13,1)]);
   Never (Lf [(0,1);(5,1);(17,1)]);
   Never (Nd 9 (Lf [(7,1);(26,1)]) (Lf [(5,1);(27,1)]));
   Never (Lf [(1,1);(2,2);(5,1);(6,1);(7,1);(13,1)]);
   Never (Lf [(0,1);(8,1);(14,1)]);
   Never (Lf [(3,1);(7,1);(8,1);(13,1)]);
   Never (Nd 2 (Lf [(19,1);(26,1)]) (Nd 4 (Lf [(18,1);(28,1)]) (Nd 7 (Nd 9 (Lf [(8,1);(31,1)]) (Lf [(6,1);(18,1);(30,1);(32,1)])) (Lf [(0,1);(8,1);(31,1)]))));
   Never (Lf [(4,1);(14,1)]);
   Never (Lf [(3,1);(13,1)]);
   Never (Nd 7 (Lf [(6,1);(26,1)]) (Lf [(5,1);(27,1)]));
   Never (Lf [(0,1);(7,1);(14,1)]);
   Never (Lf [(1,1);(5,1);(6,1);(7,1);(13,1)]);
   Never (Lf [(0,1);(1,1);(6,1);(13,1)]);
   Never (Nd 1 (Lf [(16,1);(26,1)]) (Nd 2 (Lf [(12,1);(28,1)]) (Nd 6 (Lf [(6,1);(30,1)]) (Nd 7 (Lf [(2,1);(32,1)]) (Lf [(4,1);(31,1);(33,1)])))));
   Never (Lf [(1,1);(4,1);(6,1);(8,1);(13,1)]);
   Never (Lf [(0,1);(7,1);(14,1)]);
   Never (Nd 8 (Lf [(8,1);(26,1)]) (Lf [(4,1);(27,1)]));
   Never (Lf [(0,1);(1,1);(2,2);(6,1);(13,1)]);
   Never (Lf [(5,1);(14,1)]);
   Never (Lf [(0,2);(5,1);(14,1)]);
   Never (Lf [(4,1);(15,1)]);
   Never (Lf [(4,1);(15,1)]);
   Never (Lf [(0,1);(1,1);(2,2);(6,1);(13,1)]);
   Never (Lf [(0,1);(8,1);(14,1)]);
   Never (Nd 6 (Lf [(6,1);(17,1);(26,1)]) (Lf [(5,1);(7,2);(27,1)]));
   Never (Lf [(1,1);(4,1);(6,1);(8,1);(13,1)]);
   Never (Lf [(4,1);(14,1)]);
   Never (Lf [(0,1);(1,1);(6,1);(13,1)]);
   Never (Lf [(1,1);(5,1);(6,1);(7,1);(13,1)]);
   Never (Lf [(5,1);(15,1)]);
   Never (Lf [(5,1);(15,1)]);
   Never (Lf [(3,1);(13,1)]);
   Never (Lf [(0,1);(8,1);(15,1)]);
   Never (Lf [(0,1);(8,1);(15,1)]);
   Never (Lf [(3,1);(7,1);(8,1);(13,1)]);
   Never (Lf [(0,1);(7,1);(15,1)]);
   Never (Lf [(1,1);(2,2);(5,1);(6,1);(7,1);(13,1)]);
   Never (Lf [(5,1);(14,1)]);
   Never (Lf [(0,2);(5,1);(14,1)])].
Definition certs_10 : list cert := certs_10_0 ++ certs_10_1 ++ certs_10_2 ++ certs_10_3 ++ certs_10_4 ++ certs_10_5 ++ certs_10_6.
Definition certs_11_0 : list cert :=
  [Equal [Lf [(2,1);(12,1);(17,2);(26,1)];Lf [(7,1);(8,1);(26,1)];Lf [(2,1);(12,1);(17,2);(26,1)];Lf [(7,1);(8,1);(26,1)];Lf [(2,1);(12,1);(17,2);(26,1)];Lf [(7,1);(8,1);(26,1)]];
   Never (Lf [(1,1);(2,2);(5,1);(6,1);(7,1);(13,1)]);
   Never (Lf [(5,1);(14,1)]);
   Never (Lf [(0,2);(5,1);(14,1)]);
   Equal [Nd 4 (Lf [(18,1);(27,1)]) (Lf [(26,1);(28,1)]);Nd 9 (Lf [(8,1);(27,1)]) (Lf [(26,1);(28,1)]);Lf [(26,1)];Lf [(26,1)];Lf [(18,2);(26,1)];Lf [(8,2);(26,1)]];
   Never (Lf [(7,1);(14,1);(18,1)]);
   Never (Lf [(3,1);(7,1);(8,1);(13,1)]);
   Equal [Nd 3 (Lf [(17,1);(27,1)]) (Lf [(26,1);(28,1)]);Nd 8 (Lf [(7,1);(27,1)]) (Lf [(26,1);(28,1)]);Lf [(17,2);(26,1)];Lf [(7,2);(26,1)];Lf [(26,1)];Lf [(26,1)]];
   Equal [Lf [(16,2);(26,1)];Lf [(6,2);(26,1)];Nd 2 (Lf [(16,1);(27,1)]) (Lf [(26,1);(28,1)]);Nd 7 (Lf [(6,1);(27,1)]) (Lf [(26,1);(28,1)]);Lf [(26,1)];Lf [(26,1)]];
   Never (Lf [(3,1);(13,1)]);
   Never (Lf [(2,1);(15,1);(16,1)]);
   Never (Lf [(1,1);(4,1);(6,1);(8,1);(13,1)]);
   Never (Lf [(4,1);(14,1)]);
   Never (Lf [(0,1);(1,1);(6,1);(13,1)]);
   Never (Lf [(1,1);(5,1);(6,1);(7,1);(13,1)]);
   Never (Lf [(0,1);(5,1);(17,1)]);
   Equal [Lf [(26,1)];Lf [(26,1)];Nd 6 (Lf [(2,1);(27,1)]) (Lf [(26,1);(28,1)]);Nd 1 (Lf [(12,1);(27,1)]) (Lf [(26,1);(28,1)]);Nd 1 (Lf [(12,1);(27,1)]) (Lf [(26,1);(28,1)]);Nd 6 (Lf [(2,1);(27,1)]) (Lf [(26,1);(28,1)])];
   Never (Lf [(0,1);(1,1);(2,2);(6,1);(13,1)]);
   Never (Lf [(0,1);(8,1);(14,1)]);
   Never (Lf [(4,1);(15,1)]);
   Never (Lf [(0,1);(1,1);(2,2);(6,1);(13,1)]);
   Never (Lf [(5,1);(14,1)]);
   Never (Lf [(0,2);(5,1);(14,1)]);
   Never (Lf [(1,1);(5,1);(6,1);(7,1);(13,1)]);
   Never (Lf [(0,1);(1,1);(6,1);(13,1)]);
   Never (Nd 1 (Lf [(16,1);(26,1)]) (Lf [(15,1);(27,1)]));
   Never (Lf [(1,1);(4,1);(6,1);(8,1);(13,1)]);
   Never (Lf [(0,1);(7,1);(14,1)]);
   Never (Lf [(3,1);(13,1)]);
   Never (Lf [(5,1);(15,1)]);
   Never (Lf [(3,1);(7,1);(8,1);(13,1);(14,1)]);
   Never (Lf [(3,1);(7,1);(8,1);(13,1)]);
   Never (Lf [(4,1);(8,2);(14,1);(15,1)]);
   Never (Lf [(3,1);(13,1);(14,1)]);
   Never (Lf [(0,1);(7,1);(15,1)]);
   Never (Lf [(0,1);(7,1);(15,1)]);
   Never (Lf [(1,1);(2,2);(5,1);(6,1);(7,1);(13,1)]);
   Never (Lf [(0,1);(8,1);(14,1)]);
   Never (Lf [(0,1);(5,1);(16,1)]);
   Never (Nd 5 (Lf [(1,1);(2,1);(7,1);(26,1)]) (Lf [(3,1);(27,1)]));
   Never (Lf [(1,1);(2,1);(8,1);(11,1);(13,1)]);
   Never (Lf [(0,1);(8,1);(13,1)]);
   Equal [Nd 6 (Lf [(1,1);(2,1);(7,1);(11,1);(27,1)]) (Lf [(1,2);(12,2);(26,1);(28,1)]);Lf [(6,1);(8,2);(12,1);(26,1)];Lf [(1,2);(2,2);(11,2);(12,2);(26,1)];Lf [(7,2);(26,1)];Lf [(1,2);(2,1);(6,1);(11,1);(12,3);(26,1)];Nd 6 (Lf [(1,1);(8,1);(27,1)]) (Lf [(7,1);(8,1);(26,1);(28,1)])];
   Never (Lf [(0,1);(1,2);(8,1);(13,1)]);
   Never (Lf [(1,2);(2,2);(3,1);(7,2);(13,1);(14,1)]);
   Never (Lf [(1,1);(8,1);(15,1);(16,1)]);
   Never (Lf [(3,1);(13,1)]);
   Never (Lf [(3,1);(7,1);(8,1);(14,1)]);
   Never (Lf [(5,1);(13,1)]);
   Never (Lf [(0,2);(1,2);(5,1);(13,1)]);
   Equal [Lf [(12,2);(16,2);(26,1)];Lf [(2,2);(6,2);(26,1)];Lf [(11,2);(12,2);(17,2);(26,1)];Lf [(1,2);(2,2);(7,2);(26,1)];Lf [(11,1);(12,2);(16,1);(17,1);(26,1)];Lf [(1,1);(2,2);(6,1);(7,1);(26,1)]];
   Never (Lf [(0,1);(1,1);(6,1);(13,1)]);
   Never (Lf [(5,1);(7,2);(13,1);(14,1)]);
   Never (Lf [(0,1);(1,2);(2,2);(7,1);(15,1)]);
   Never (Lf [(1,2);(2,2);(3,1);(7,1);(8,1);(14,1);(15,1)]);
   Never (Lf [(0,1);(1,1);(2,2);(6,1);(13,1)]);
   Never (Lf [(0,1);(8,1);(13,1);(14,1)]);
   Never (Lf [(2,1);(6,1);(11,1);(13,1);(18,1)]);
   Never (Lf [(0,1);(1,1);(2,2);(6,1);(13,1)]);
   Never (Nd 1 (Lf [(1,1);(18,1);(26,1)]) (Lf [(2,1);(6,1);(11,1);(14,1);(18,1);(27,1)]));
   Never (Lf [(0,1);(5,1);(14,1);(16,1);(18,1)]);
   Never (Lf [(1,1);(2,2);(5,1);(6,1);(7,1);(15,1)]);
   Never (Lf [(0,1);(1,1);(6,1);(13,1)]);
   Never (Lf [(0,1);(1,2);(2,2);(7,1);(14,1)])].
Definition certs_11_1 : list cert :=
  [Never (Lf [(0,2);(1,2);(5,1);(13,1)]);
   Never (Lf [(5,1);(13,1)]);
   Never (Lf [(6,1);(15,1);(16,1)]);
   Never (Lf [(3,1);(13,1)]);
   Never (Lf [(1,1);(2,2);(5,1);(6,1);(7,1);(14,1)]);
   Never (Lf [(3,1);(7,1);(8,1);(15,1)]);
   Never (Lf [(0,1);(1,2);(8,1);(13,1)]);
   Never (Lf [(0,1);(7,1);(14,1)]);
   Never (Lf [(0,1);(8,1);(13,1)]);
   Never (Lf [(1,1);(2,1);(8,1);(11,1);(13,1)]);
   Never (Lf [(0,1);(7,1);(15,1)]);
   Never (Lf [(2,1);(5,1);(6,1);(7,2);(11,1);(14,1)]);
   Equal [Nd 5 (Lf [(1,1);(8,1);(27,1)]) (Lf [(1,1);(11,1);(16,1);(26,1);(28,1)]);Lf [(6,1);(7,1);(8,1);(11,1);(26,1)];Lf [(6,1);(11,1);(16,2);(26,1)];Nd 5 (Lf [(1,1);(8,1);(27,1)]) (Lf [(7,2);(26,1);(28,1)]);Lf [(1,2);(11,2);(26,1)];Lf [(8,2);(26,1)]];
   Never (Lf [(1,1);(4,1);(6,1);(8,1);(14,1)]);
   Never (Lf [(4,1);(13,1)]);
   Never (Lf [(2,1);(6,1);(12,1);(14,1);(16,1)]);
   Never (Lf [(6,1);(11,1);(12,1);(13,1);(17,1)]);
   Never (Lf [(0,1);(7,1);(13,1)]);
   Never (Lf [(1,2);(3,1);(8,2);(13,1);(15,1)]);
   Never (Lf [(1,1);(4,1);(6,1);(8,1);(14,1)]);
   Never (Lf [(3,1);(13,1)]);
   Never (Lf [(1,1);(4,1);(6,1);(8,1);(15,1)]);
   Never (Lf [(0,1);(1,1);(6,1);(13,1)]);
   Never (Lf [(1,1);(7,1);(11,1);(12,1);(13,1)]);
   Never (Nd 6 (Lf [(1,1);(2,1);(26,1)]) (Lf [(3,1);(7,1);(8,1);(27,1)]));
   Never (Lf [(0,1);(1,2);(2,2);(7,1);(13,1)]);
   Never (Lf [(0,1);(1,2);(8,1);(14,1)]);
   Never (Lf [(0,1);(1,1);(2,2);(6,1);(13,1)]);
   Never (Lf [(0,1);(1,1);(2,2);(6,1);(13,1)]);
   Never (Nd 0 (Lf [(17,1);(26,1)]) (Lf [(15,1);(27,1)]));
   Never (Lf [(0,1);(1,2);(2,2);(7,1);(13,1)]);
   Never (Lf [(0,1);(8,1);(14,1)]);
   Never (Lf [(1,1);(7,1);(11,1);(12,1);(13,1)]);
   Never (Lf [(0,1);(1,1);(6,1);(13,1)]);
   Never (Lf [(1,1);(7,1);(12,1);(14,1)]);
   Never (Lf [(3,1);(13,1)]);
   Equal [Lf [(16,2);(26,1)];Lf [(6,2);(26,1)];Lf [(11,1);(16,1);(18,1);(26,1)];Lf [(1,1);(6,1);(8,1);(26,1)];Lf [(11,2);(18,2);(26,1)];Lf [(1,2);(8,2);(26,1)]];
   Never (Lf [(3,1);(7,1);(8,1);(14,1)]);
   Never (Lf [(0,1);(7,1);(13,1)]);
   Never (Lf [(5,1);(6,2);(13,2);(14,1)]);
   Never (Lf [(3,1);(7,1);(8,1);(15,1)]);
   Never (Lf [(4,1);(13,1)]);
   Never (Lf [(4,1);(8,2);(13,1);(15,1)]);
   Never (Lf [(3,1);(7,1);(8,1);(14,1)]);
   Equal [Nd 5 (Lf [(1,1);(27,1)]) (Lf [(26,1);(28,1)]);Nd 0 (Lf [(11,1);(27,1)]) (Lf [(26,1);(28,1)]);Nd 0 (Lf [(11,1);(27,1)]) (Lf [(26,1);(28,1)]);Nd 5 (Lf [(1,1);(27,1)]) (Lf [(26,1);(28,1)]);Lf [(26,1)];Lf [(26,1)]];
   Never (Lf [(1,1);(5,1);(6,1);(7,1);(13,1);(14,1)]);
   Never (Lf [(0,1);(7,1);(13,1)]);
   Never (Lf [(1,1);(3,2);(8,1);(15,2);(17,1)]);
   Never (Nd 6 (Lf [(1,1);(2,1);(7,1);(26,1)]) (Lf [(3,1);(27,1)]));
   Never (Lf [(0,1);(1,2);(8,1);(14,1)]);
   Never (Lf [(0,1);(1,2);(2,2);(7,1);(13,1)]);
   Never (Lf [(1,1);(2,2);(5,1);(6,1);(7,1);(13,1)]);
   Never (Lf [(1,2);(3,1);(7,1);(8,1);(13,1);(15,1)]);
   Never (Lf [(0,1);(1,1);(6,1);(14,1)]);
   Never (Lf [(3,1);(7,1);(8,1);(13,1)]);
   Never (Lf [(0,1);(1,1);(5,1);(17,1)]);
   Never (Nd 0 (Lf [(2,1);(6,1);(12,1);(26,1)]) (Lf [(1,2);(2,1);(8,1);(12,1);(13,1);(27,1)]));
   Never (Lf [(1,1);(2,1);(12,1);(14,1);(16,1)]);
   Never (Lf [(1,1);(4,1);(6,1);(8,1);(13,1)]);
   Never (Nd 0 (Lf [(8,1);(17,1);(26,1)]) (Lf [(13,1);(27,1)]));
   Never (Nd 1 (Lf [(1,1);(7,1);(16,1);(26,1)]) (Lf [(2,1);(6,1);(14,1);(16,1);(27,1)]));
   Never (Lf [(4,1);(13,1)]);
   Never (Lf [(3,1);(4,1);(13,1)]);
   Never (Lf [(3,1);(4,1);(13,1)])].
Definition certs_11_2 : list cert :=
  [Never (Lf [(4,1);(13,1)]);
   Never (Lf [(3,1);(15,1)]);
   Never (Lf [(1,1);(4,1);(6,1);(8,1);(13,1);(14,1)]);
   Never (Lf [(1,1);(4,1);(6,1);(8,1);(13,1)]);
   Never (Lf [(5,1);(6,2);(14,1);(15,1)]);
   Never (Lf [(4,1);(13,1);(14,1)]);
   Never (Lf [(0,2);(1,2);(5,1);(14,1)]);
   Never (Lf [(3,1);(7,1);(8,1);(13,1)]);
   Equal [Lf [(1,1);(7,1);(17,2);(18,1);(26,1)];Nd 0 (Lf [(8,1);(18,1);(27,1)]) (Lf [(1,1);(6,1);(8,1);(26,1);(28,1)]);Nd 0 (Lf [(8,1);(18,1);(27,1)]) (Lf [(17,2);(26,1);(28,1)]);Lf [(1,1);(6,1);(7,1);(26,1)];Lf [(18,2);(26,1)];Lf [(1,2);(8,2);(26,1)]];
   Never (Lf [(3,1);(14,1)]);
   Never (Lf [(1,1);(2,2);(5,1);(6,1);(7,1);(13,1)]);
   Never (Lf [(0,1);(1,2);(2,2);(7,1);(13,1)]);
   Never (Lf [(6,1);(15,1);(17,1)]);
   Never (Lf [(5,1);(14,1)]);
   Never (Lf [(0,2);(1,2);(5,1);(14,1)]);
   Never (Lf [(0,1);(7,1);(13,1)]);
   Never (Lf [(5,1);(15,1)]);
   Never (Lf [(3,1);(14,1)]);
   Never (Lf [(4,2);(8,1);(15,2);(16,1)]);
   Never (Nd 0 (Lf [(2,1);(6,1);(11,1);(26,1)]) (Lf [(1,2);(2,1);(8,1);(11,1);(15,1);(27,1)]));
   Never (Lf [(0,1);(1,1);(2,2);(6,1);(14,1)]);
   Never (Lf [(0,1);(8,1);(13,1)]);
   Never (Lf [(0,1);(7,1);(13,1)]);
   Never (Lf [(1,1);(2,1);(8,1);(12,1);(14,1)]);
   Never (Lf [(1,1);(2,1);(8,1);(11,1);(12,1);(13,1)]);
   Never (Lf [(0,1);(1,2);(2,2);(7,1);(13,1)]);
   Never (Lf [(1,1);(4,1);(6,1);(8,1);(15,1)]);
   Never (Lf [(0,1);(1,2);(8,1);(13,1)]);
   Never (Lf [(1,1);(7,1);(11,1);(12,1);(13,1)]);
   Equal [Lf [(2,1);(11,1);(16,1);(26,1)];Lf [(1,1);(6,1);(8,1);(26,1)];Lf [(2,1);(11,1);(16,1);(26,1)];Lf [(1,1);(6,1);(8,1);(26,1)];Lf [(2,1);(11,1);(16,1);(26,1)];Lf [(1,1);(6,1);(8,1);(26,1)]];
   Never (Lf [(1,1);(2,2);(5,1);(6,1);(7,1);(14,1)]);
   Never (Lf [(5,1);(13,1)]);
   Never (Lf [(0,2);(1,2);(5,1);(13,1)]);
   Never (Lf [(2,2);(4,1);(6,2);(13,1);(15,1)]);
   Never (Lf [(1,1);(2,2);(5,1);(6,1);(7,1);(14,1)]);
   Never (Lf [(4,1);(13,1)]);
   Never (Lf [(3,1);(4,1);(13,1)]);
   Never (Lf [(3,1);(4,1);(13,1)]);
   Never (Lf [(4,1);(13,1)]);
   Equal [Lf [(1,1);(7,1);(11,1);(16,2);(26,1)];Lf [(1,1);(2,2);(6,1);(7,1);(26,1)];Lf [(1,1);(8,1);(11,1);(16,2);(26,1)];Nd 1 (Lf [(1,1);(7,1);(16,1);(27,1)]) (Lf [(1,1);(2,2);(6,1);(7,1);(26,1);(28,1)]);Nd 1 (Lf [(1,1);(7,1);(16,1);(27,1)]) (Lf [(1,1);(7,1);(11,1);(16,2);(26,1);(28,1)]);Lf [(1,1);(2,2);(6,1);(8,1);(26,1)]];
   Never (Lf [(1,1);(4,1);(6,1);(8,1);(14,1)]);
   Never (Lf [(0,2);(1,2);(5,1);(13,1)]);
   Never (Lf [(5,1);(13,1)]);
   Never (Lf [(5,1);(6,2);(13,1);(15,1)]);
   Never (Lf [(1,1);(4,1);(6,1);(8,1);(14,1)]);
   Never (Lf [(1,1);(7,1);(11,1);(12,1);(13,1)]);
   Never (Lf [(0,1);(1,2);(8,1);(13,1)]);
   Never (Lf [(1,1);(7,1);(12,1);(14,1)]);
   Never (Lf [(0,1);(1,2);(2,2);(7,1);(13,1)]);
   Never (Lf [(1,1);(2,1);(8,1);(11,1);(12,1);(13,1)]);
   Never (Lf [(1,1);(2,2);(5,1);(6,1);(7,1);(15,1)]);
   Never (Lf [(0,1);(7,1);(13,1)]);
   Never (Lf [(0,1);(8,1);(13,1)]);
   Never (Nd 1 (Lf [(1,1);(6,1);(11,1);(26,1)]) (Lf [(15,1);(27,1)]));
   Never (Lf [(0,1);(1,1);(6,1);(14,1)]);
   Never (Lf [(1,1);(5,1);(6,1);(7,1);(14,1)]);
   Never (Nd 5 (Lf [(1,1);(2,1);(26,1)]) (Lf [(3,1);(7,1);(8,1);(27,1)]));
   Never (Nd 1 (Lf [(6,1);(17,1);(26,1)]) (Lf [(13,1);(27,1)]));
   Never (Lf [(5,1);(13,1)]);
   Never (Lf [(0,2);(5,1);(13,1)]);
   Never (Lf [(1,2);(2,2);(3,1);(7,2);(14,1);(15,1)]);
   Never (Lf [(1,1);(2,2);(5,1);(6,1);(7,1);(13,1)]);
   Never (Lf [(5,1);(13,1);(14,1)]);
   Never (Lf [(0,2);(5,1);(13,1);(14,1)])].
Definition certs_11_3 : list cert :=
  [Never (Lf [(1,1);(15,1);(16,1)]);
   Never (Lf [(3,1);(14,1)]);
   Never (Lf [(3,1);(7,1);(8,1);(13,1)]);
   Never (Lf [(0,1);(8,1);(13,1)]);
   Never (Lf [(0,1);(1,1);(5,1);(16,1)]);
   Equal [Nd 0 (Lf [(12,1);(27,1)]) (Nd 1 (Lf [(11,1);(29,1)]) (Nd 2 (Nd 5 (Lf [(2,1);(32,1)]) (Nd 6 (Lf [(1,1);(34,1)]) (Lf [(26,1);(33,1);(35,1)]))) (Lf [(1,1);(8,1);(26,1);(31,1)])));Nd 0 (Lf [(12,1);(27,1)]) (Nd 1 (Lf [(11,1);(29,1)]) (Lf [(26,1);(28,1);(30,1)]));Lf [(26,1)];Lf [(26,1)];Nd 0 (Lf [(12,1);(27,1)]) (Nd 1 (Lf [(11,1);(29,1)]) (Lf [(26,1);(28,1);(30,1)]));Nd 0 (Lf [(12,1);(27,1)]) (Nd 1 (Lf [(11,1);(29,1)]) (Nd 2 (Nd 5 (Lf [(2,1);(32,1)]) (Nd 6 (Lf [(1,1);(34,1)]) (Lf [(26,1);(33,1);(35,1)]))) (Lf [(1,1);(8,1);(26,1);(31,1)])))];
   Never (Lf [(1,2);(2,2);(3,1);(7,1);(8,1);(13,1);(14,1)]);
   Never (Lf [(0,1);(1,2);(8,1);(13,1)]);
   Never (Lf [(0,1);(1,1);(2,2);(6,1);(15,1)]);
   Never (Lf [(1,1);(2,2);(4,1);(6,1);(8,1);(13,1);(15,1)]);
   Never (Lf [(0,1);(1,2);(2,2);(7,1);(14,1)]);
   Never (Lf [(1,1);(4,1);(6,1);(8,1);(13,1)]);
   Never (Lf [(1,1);(4,1);(6,1);(8,1);(13,1)]);
   Equal [Lf [(1,3);(2,1);(8,1);(12,2);(17,3);(26,1)];Nd 1 (Lf [(1,1);(7,1);(17,1);(27,1)]) (Lf [(2,2);(6,2);(26,1);(28,1)]);Lf [(17,2);(26,1)];Lf [(1,2);(2,2);(7,2);(26,1)];Nd 1 (Lf [(1,1);(6,1);(12,1);(17,1);(27,1)]) (Lf [(1,1);(12,1);(17,2);(26,1);(28,1)]);Lf [(1,1);(2,2);(6,1);(8,1);(26,1)]];
   Never (Lf [(4,1);(14,1)]);
   Never (Lf [(3,1);(4,1);(14,1)]);
   Never (Lf [(0,1);(1,2);(8,1);(13,1)]);
   Never (Lf [(3,1);(15,1)]);
   Never (Lf [(4,1);(14,1)]);
   Never (Lf [(3,1);(4,1);(14,1)]);
   Never (Lf [(0,1);(8,1);(13,1)]);
   Never (Lf [(3,1);(7,1);(8,1);(13,1)]);
   Never (Nd 0 (Lf [(16,1);(26,1)]) (Lf [(15,1);(27,1)]));
   Never (Lf [(0,1);(1,1);(2,2);(6,1);(14,1)]);
   Never (Lf [(3,1);(17,1);(18,1)]);
   Never (Nd 1 (Lf [(7,1);(12,1);(26,1)]) (Lf [(2,1);(6,1);(13,1);(18,1);(27,1)]));
   Never (Lf [(1,1);(2,2);(5,1);(6,1);(7,1);(13,1)]);
   Never (Lf [(2,1);(6,1);(14,1);(18,1)]);
   Never (Lf [(0,2);(5,1);(13,1)]);
   Never (Lf [(5,1);(13,1)]);
   Never (Lf [(1,1);(2,2);(5,1);(6,1);(7,1);(13,1);(14,1)]);
   Never (Lf [(4,1);(15,1)]);
   Never (Lf [(3,1);(4,1);(14,1)]);
   Never (Lf [(3,1);(14,1)]);
   Never (Lf [(4,1);(15,1)]);
   Never (Lf [(0,1);(8,1);(13,1)]);
   Never (Lf [(3,1);(4,1);(14,1)]);
   Never (Lf [(3,1);(14,1)]);
   Equal [Lf [(2,1);(8,1);(12,1);(17,3);(26,1)];Nd 1 (Lf [(6,1);(17,1);(27,1)]) (Lf [(2,2);(6,2);(26,1);(28,1)]);Lf [(17,1);(18,1);(26,1)];Lf [(1,1);(2,2);(6,1);(7,1);(26,1)];Nd 1 (Lf [(6,1);(17,1);(27,1)]) (Lf [(18,2);(26,1);(28,1)]);Lf [(1,2);(2,2);(7,1);(8,1);(26,1)]];
   Never (Lf [(3,1);(7,1);(8,1);(13,1)]);
   Never (Lf [(4,1);(14,1)]);
   Never (Lf [(2,1);(6,1);(15,1);(17,1)]);
   Never (Lf [(0,1);(1,2);(8,1);(13,1)]);
   Never (Lf [(1,1);(4,1);(6,1);(8,1);(13,1)]);
   Never (Lf [(3,1);(15,1)]);
   Never (Lf [(1,1);(2,2);(5,1);(6,1);(7,1);(13,1);(14,1)]);
   Never (Lf [(5,1);(13,1)]);
   Never (Lf [(0,2);(1,2);(5,1);(13,1)]);
   Never (Lf [(1,1);(12,1);(14,1);(16,1)]);
   Never (Lf [(1,1);(2,2);(5,1);(6,1);(7,1);(13,1)]);
   Never (Nd 1 (Lf [(1,1);(6,1);(12,1);(26,1)]) (Lf [(13,1);(27,1)]));
   Never (Lf [(1,1);(5,1);(6,1);(7,1);(13,1)]);
   Never (Lf [(1,1);(5,1);(6,1);(7,1);(13,1)]);
   Never (Lf [(5,1);(13,1);(14,1)]);
   Never (Lf [(1,1);(2,2);(5,1);(6,1);(7,1);(13,1)]);
   Never (Lf [(2,2);(4,1);(6,2);(14,1);(15,1)]);
   Never (Lf [(0,2);(1,2);(5,1);(13,1)]);
   Never (Lf [(5,1);(13,1)]);
   Never (Nd 1 (Lf [(1,1);(7,1);(17,1);(26,1)]) (Lf [(2,1);(6,1);(13,1);(17,1);(27,1)]));
   Never (Nd 0 (Lf [(8,1);(16,1);(26,1)]) (Lf [(14,1);(27,1)]));
   Never (Lf [(1,1);(4,1);(6,1);(8,1);(13,1)]);
   Never (Lf [(0,1);(1,2);(8,1);(13,1)]);
   Never (Lf [(0,1);(1,2);(2,2);(7,1);(14,1)]);
   Never (Nd 6 (Lf [(1,1);(8,1);(26,1)]) (Lf [(3,1);(27,1)]))].
Definition certs_11_4 : list cert :=
  [Never (Lf [(3,1);(7,1);(8,1);(13,1)]);
   Never (Lf [(0,1);(1,1);(2,2);(6,1);(14,1)]);
   Never (Lf [(1,2);(2,2);(3,1);(7,1);(8,1);(13,1);(15,1)]);
   Never (Lf [(0,1);(1,2);(2,2);(7,1);(15,1)]);
   Never (Lf [(0,1);(8,1);(13,1)]);
   Never (Lf [(1,1);(2,2);(4,1);(6,1);(8,1);(13,1);(14,1)]);
   Equal [Nd 5 (Lf [(1,1);(2,1);(27,1)]) (Lf [(26,1);(28,1)]);Nd 0 (Lf [(2,1);(11,1);(27,1)]) (Nd 1 (Lf [(1,1);(11,1);(29,1)]) (Lf [(26,1);(28,1);(30,1)]));Nd 0 (Lf [(2,1);(11,1);(27,1)]) (Lf [(26,1);(28,1)]);Nd 0 (Lf [(2,1);(11,1);(27,1)]) (Nd 1 (Lf [(1,1);(11,1);(29,1)]) (Nd 5 (Lf [(1,1);(2,1);(31,1)]) (Lf [(26,1);(30,1);(32,1)])));Nd 1 (Lf [(1,1);(11,1);(27,1)]) (Lf [(26,1);(28,1)]);Nd 0 (Lf [(2,1);(11,1);(27,1)]) (Nd 5 (Lf [(1,1);(2,1);(29,1)]) (Lf [(26,1);(28,1);(30,1)]))];
   Never (Lf [(0,1);(5,1);(16,1)]);
   Never (Lf [(1,1);(2,2);(5,1);(6,1);(7,1);(14,1)]);
   Never (Lf [(7,1);(15,1);(16,1)]);
   Never (Lf [(4,1);(13,1)]);
   Never (Lf [(5,1);(13,1)]);
   Never (Lf [(0,2);(5,1);(13,1)]);
   Never (Lf [(0,1);(1,1);(2,2);(6,1);(14,1)]);
   Never (Lf [(1,1);(2,2);(5,1);(6,1);(7,1);(15,1)]);
   Never (Lf [(0,1);(7,1);(13,1)]);
   Never (Lf [(2,2);(4,1);(6,2);(13,1);(14,1)]);
   Equal [Lf [(2,1);(11,1);(12,2);(16,1);(26,1)];Lf [(1,1);(6,1);(8,1);(26,1)];Nd 0 (Lf [(16,1);(27,1)]) (Lf [(2,2);(11,2);(12,2);(26,1);(28,1)]);Lf [(1,1);(6,1);(7,1);(26,1)];Lf [(2,1);(7,1);(11,1);(12,3);(16,1);(26,1)];Nd 0 (Lf [(16,1);(27,1)]) (Lf [(1,2);(8,2);(26,1);(28,1)])];
   Never (Lf [(0,1);(8,1);(13,1)]);
   Never (Lf [(1,1);(5,1);(6,1);(7,1);(14,1)]);
   Never (Lf [(1,1);(5,1);(6,1);(7,1);(14,1);(15,1)]);
   Never (Lf [(1,1);(2,1);(8,1);(11,1);(13,1)]);
   Never (Lf [(0,1);(1,2);(8,1);(13,1)]);
   Never (Lf [(1,1);(5,1);(6,1);(7,1);(14,1)]);
   Never (Nd 1 (Lf [(1,1);(12,1);(26,1)]) (Lf [(14,1);(27,1)]));
   Never (Lf [(0,1);(1,2);(2,2);(7,1);(13,1)]);
   Never (Lf [(1,1);(7,1);(11,1);(13,1)]);
   Never (Lf [(1,1);(7,1);(11,1);(13,1)]);
   Never (Lf [(0,1);(1,2);(2,2);(7,1);(13,1)]);
   Never (Lf [(1,1);(2,2);(4,1);(6,1);(8,1);(14,1);(15,1)]);
   Never (Lf [(0,1);(1,1);(2,2);(6,1);(15,1)]);
   Never (Lf [(0,1);(1,2);(8,1);(13,1)]);
   Never (Lf [(1,1);(2,1);(8,1);(11,1);(13,1)]);
   Never (Nd 0 (Lf [(12,1);(26,1)]) (Lf [(1,1);(2,1);(8,1);(11,1);(14,1);(27,1)]));
   Never (Lf [(0,1);(1,1);(5,1);(16,1)]);
   Never (Lf [(0,1);(8,1);(13,1)]);
   Never (Lf [(0,1);(1,1);(6,1);(14,1)]);
   Never (Lf [(1,1);(4,1);(6,1);(8,1);(15,1)]);
   Never (Lf [(0,1);(7,1);(13,1)]);
   Never (Lf [(5,1);(6,2);(13,1);(14,1)]);
   Equal [Lf [(1,1);(11,1);(12,2);(16,2);(26,1)];Lf [(1,1);(2,2);(6,1);(7,1);(26,1)];Lf [(1,1);(11,1);(12,2);(16,2);(26,1)];Lf [(1,1);(2,2);(6,1);(7,1);(26,1)];Lf [(1,1);(11,1);(12,2);(16,2);(26,1)];Lf [(1,1);(2,2);(6,1);(7,1);(26,1)]];
   Never (Lf [(0,2);(5,1);(13,1)]);
   Never (Lf [(5,1);(13,1)]);
   Never (Lf [(4,1);(13,1)]);
   Never (Lf [(1,1);(4,1);(6,1);(8,1);(14,1)]);
   Never (Lf [(8,1);(15,1);(16,1)]);
   Never (Lf [(5,1);(15,1)]);
   Never (Lf [(1,1);(4,1);(6,1);(8,1);(13,1);(14,1)]);
   Never (Lf [(4,1);(13,1)]);
   Never (Lf [(0,1);(1,1);(6,1);(14,1)]);
   Never (Nd 1 (Lf [(1,1);(16,1);(26,1)]) (Lf [(2,1);(6,1);(12,1);(15,1);(16,1);(27,1)]));
   Never (Lf [(3,1);(7,1);(8,1);(13,1)]);
   Never (Lf [(0,1);(7,1);(13,1)]);
   Never (Lf [(0,1);(1,1);(5,1);(17,1)]);
   Never (Lf [(6,1);(14,1);(18,1)]);
   Never (Lf [(1,1);(4,1);(6,1);(8,1);(13,1)]);
   Never (Nd 0 (Lf [(8,1);(18,1);(26,1)]) (Lf [(13,1);(27,1)]));
   Never (Lf [(0,1);(1,2);(8,1);(14,1)]);
   Never (Lf [(1,1);(2,2);(5,1);(6,1);(7,1);(13,1)]);
   Never (Lf [(1,1);(5,1);(6,1);(7,1);(13,1);(15,1)]);
   Never (Lf [(1,1);(5,1);(6,1);(7,1);(13,1)]);
   Never (Lf [(0,2);(1,2);(5,1);(14,1)]);
   Never (Lf [(5,1);(14,1)]);
   Never (Lf [(0,1);(1,2);(2,2);(7,1);(13,1)])].
Definition certs_11_5 : list cert :=
  [Never (Lf [(3,1);(15,1)]);
   Never (Lf [(1,2);(3,1);(7,1);(8,1);(13,1);(14,1)]);
   Never (Lf [(0,1);(1,2);(2,2);(7,1);(13,1)]);
   Equal [Nd 0 (Lf [(2,1);(12,1);(27,1)]) (Nd 1 (Lf [(1,1);(12,1);(29,1)]) (Nd 6 (Lf [(1,1);(2,1);(31,1)]) (Lf [(26,1);(30,1);(32,1)])));Nd 0 (Lf [(2,1);(12,1);(27,1)]) (Lf [(26,1);(28,1)]);Nd 0 (Lf [(2,1);(12,1);(27,1)]) (Nd 6 (Lf [(1,1);(2,1);(29,1)]) (Lf [(26,1);(28,1);(30,1)]));Nd 1 (Lf [(1,1);(12,1);(27,1)]) (Lf [(26,1);(28,1)]);Nd 0 (Lf [(2,1);(12,1);(27,1)]) (Nd 1 (Lf [(1,1);(12,1);(29,1)]) (Lf [(26,1);(28,1);(30,1)]));Nd 6 (Lf [(1,1);(2,1);(27,1)]) (Lf [(26,1);(28,1)])];
   Never (Lf [(0,1);(1,1);(5,1);(17,1)]);
   Never (Lf [(1,1);(5,1);(6,1);(7,1);(13,1)]);
   Never (Lf [(5,1);(14,1)]);
   Never (Lf [(1,1);(2,2);(5,1);(6,1);(7,1);(13,1)]);
   Equal [Lf [(1,3);(2,2);(7,1);(12,2);(17,3);(26,1)];Nd 0 (Lf [(8,1);(17,1);(27,1)]) (Lf [(1,1);(6,1);(8,1);(26,1);(28,1)]);Nd 0 (Lf [(2,1);(6,1);(12,1);(17,1);(27,1)]) (Lf [(1,1);(2,1);(12,1);(17,2);(26,1);(28,1)]);Lf [(1,2);(7,1);(8,1);(26,1)];Lf [(1,1);(2,1);(12,1);(17,2);(26,1)];Lf [(1,1);(6,1);(8,1);(26,1)]];
   Never (Lf [(4,1);(13,1);(14,1)]);
   Never (Lf [(1,1);(4,1);(6,1);(8,1);(13,1)]);
   Never (Lf [(1,2);(3,1);(8,2);(14,1);(15,1)]);
   Never (Lf [(0,2);(1,2);(5,1);(14,1)]);
   Never (Lf [(0,1);(7,1);(13,1)]);
   Never (Lf [(3,1);(7,1);(8,1);(13,1)]);
   Never (Lf [(3,1);(14,1)]);
   Never (Lf [(1,1);(2,1);(15,1);(16,1)]);
   Never (Lf [(4,1);(13,1)]);
   Never (Nd 0 (Lf [(11,1);(26,1)]) (Lf [(1,1);(8,1);(13,1);(17,1);(27,1)]));
   Never (Nd 5 (Lf [(1,1);(26,1)]) (Lf [(3,1);(7,1);(8,1);(27,1)]));
   Never (Lf [(0,1);(8,1);(15,1)]);
   Never (Lf [(1,1);(7,1);(11,1);(13,1)]);
   Never (Lf [(0,1);(7,1);(13,1)]);
   Never (Lf [(0,1);(8,1);(14,1)]);
   Never (Lf [(3,1);(7,1);(8,1);(15,1)]);
   Never (Lf [(0,1);(1,2);(2,2);(7,1);(13,1)]);
   Never (Nd 0 (Lf [(18,1);(26,1)]) (Lf [(14,1);(27,1)]));
   Never (Lf [(0,1);(1,1);(6,1);(13,1)]);
   Never (Lf [(6,1);(11,1);(13,1);(18,1)]);
   Never (Lf [(4,1);(8,2);(13,1);(14,1)]);
   Equal [Lf [(2,2);(12,2);(26,1)];Lf [(6,2);(26,1)];Nd 0 (Lf [(17,1);(27,1)]) (Lf [(2,1);(11,1);(12,2);(17,1);(26,1);(28,1)]);Lf [(1,2);(7,1);(8,1);(26,1)];Lf [(2,1);(7,1);(11,2);(12,3);(17,1);(26,1)];Nd 0 (Lf [(17,1);(27,1)]) (Lf [(1,2);(8,2);(26,1);(28,1)])];
   Never (Lf [(0,1);(1,1);(2,2);(6,1);(13,1)]);
   Never (Lf [(1,1);(4,1);(6,1);(8,1);(14,1)]);
   Never (Lf [(3,1);(13,1)]);
   Never (Lf [(2,1);(6,1);(15,1);(16,1)]);
   Never (Lf [(4,1);(13,1)]);
   Never (Lf [(4,1);(13,1)]);
   Never (Lf [(3,1);(7,1);(8,1);(14,1)]);
   Never (Lf [(3,1);(13,1)]);
   Never (Lf [(1,1);(2,1);(7,1);(15,1);(16,1)]);
   Never (Lf [(0,1);(1,1);(2,2);(6,1);(13,1)]);
   Never (Lf [(0,1);(1,2);(8,1);(14,1)]);
   Never (Lf [(1,1);(4,1);(6,1);(8,1);(15,1)]);
   Never (Lf [(0,1);(7,1);(13,1);(14,1)]);
   Never (Lf [(0,1);(1,1);(6,1);(13,1)]);
   Never (Lf [(1,2);(3,1);(7,1);(8,1);(14,1);(15,1)]);
   Never (Lf [(0,1);(1,2);(2,2);(7,1);(13,1)]);
   Never (Lf [(1,2);(3,1);(8,2);(13,1);(14,1)]);
   Equal [Nd 6 (Lf [(1,1);(2,1);(7,1);(27,1)]) (Lf [(1,2);(2,2);(12,2);(26,1);(28,1)]);Lf [(2,1);(6,1);(7,2);(12,1);(26,1)];Lf [(1,2);(2,1);(11,1);(12,2);(26,1)];Lf [(7,1);(8,1);(26,1)];Lf [(1,2);(2,1);(6,1);(11,2);(12,3);(26,1)];Nd 6 (Lf [(1,1);(2,1);(7,1);(27,1)]) (Lf [(8,2);(26,1);(28,1)])];
   Never (Lf [(0,1);(7,1);(13,1)]);
   Never (Lf [(1,1);(7,1);(11,1);(13,1)]);
   Never (Nd 5 (Lf [(1,1);(8,1);(26,1)]) (Lf [(3,1);(27,1)]));
   Never (Lf [(3,1);(7,1);(8,1);(14,1)]);
   Never (Lf [(5,1);(7,2);(13,1);(15,1)]);
   Never (Lf [(5,1);(13,1)]);
   Never (Lf [(0,2);(5,1);(13,1)]);
   Never (Lf [(2,2);(4,1);(6,2);(13,2);(14,1)]);
   Never (Lf [(3,1);(7,1);(8,1);(15,1)]);
   Never (Lf [(0,1);(8,1);(13,1)]);
   Never (Lf [(0,1);(1,1);(5,1);(16,1)]);
   Never (Lf [(0,1);(7,1);(14,1)]);
   Never (Lf [(0,1);(1,2);(8,1);(13,1)]);
   Never (Nd 1 (Lf [(1,1);(17,1);(26,1)]) (Lf [(2,2);(6,1);(11,1);(15,1);(17,1);(27,1)]));
   Never (Lf [(0,1);(1,1);(6,1);(13,1)])].
Definition certs_11_6 : list cert :=
  [Never (Lf [(1,1);(2,1);(8,1);(11,1);(12,1);(13,1)]);
   Never (Lf [(1,1);(2,2);(5,1);(6,1);(7,1);(15,1)]);
   Never (Lf [(0,1);(1,1);(2,2);(6,1);(13,1)]);
   Never (Lf [(3,1);(7,1);(8,1);(14,1)]);
   Equal [Lf [(16,2);(26,1)];Lf [(2,2);(6,2);(26,1)];Lf [(8,1);(11,2);(16,1);(18,1);(26,1)];Nd 1 (Lf [(6,1);(16,1);(27,1)]) (Lf [(1,1);(2,2);(6,1);(7,1);(26,1);(28,1)]);Nd 1 (Lf [(1,1);(18,1);(27,1)]) (Lf [(11,2);(18,2);(26,1);(28,1)]);Lf [(1,2);(2,2);(7,1);(8,1);(26,1)]];
   Never (Lf [(3,1);(13,1)]);
   Never (Lf [(3,1);(4,1);(13,1)]);
   Never (Lf [(3,1);(4,1);(13,1)]);
   Never (Lf [(3,1);(13,1)]);
   Never (Lf [(1,1);(2,2);(5,1);(6,1);(7,1);(14,1)]);
   Never (Lf [(1,2);(2,2);(3,1);(7,2);(13,1);(15,1)]);
   Never (Lf [(0,1);(1,1);(2,2);(6,1);(13,1)]);
   Never (Lf [(1,1);(2,1);(8,1);(12,1);(14,1)]);
   Never (Lf [(1,1);(2,1);(8,1);(11,1);(12,1);(13,1)]);
   Never (Lf [(0,1);(1,1);(6,1);(13,1)]);
   Never (Lf [(0,1);(1,2);(2,2);(7,1);(14,1)]);
   Never (Lf [(0,1);(1,2);(8,1);(13,1)]);
   Never (Nd 6 (Lf [(1,1);(26,1)]) (Lf [(3,1);(7,1);(8,1);(27,1)]));
   Never (Lf [(1,1);(3,2);(8,1);(15,2);(16,1)]);
   Never (Lf [(0,1);(8,1);(13,1)]);
   Never (Lf [(6,1);(12,1);(14,1);(16,1)]);
   Never (Lf [(2,1);(6,1);(11,1);(12,1);(13,1);(17,1)]);
   Never (Lf [(0,2);(5,1);(13,1)]);
   Never (Lf [(5,1);(13,1)]);
   Never (Lf [(1,1);(2,2);(5,1);(6,1);(7,1);(14,1)]);
   Equal [Nd 5 (Lf [(1,1);(2,1);(7,1);(27,1)]) (Lf [(1,1);(2,1);(11,1);(16,1);(26,1);(28,1)]);Lf [(2,1);(6,1);(7,1);(8,1);(11,1);(26,1)];Lf [(1,1);(2,2);(6,1);(11,2);(16,1);(26,1)];Nd 5 (Lf [(1,1);(2,1);(7,1);(27,1)]) (Lf [(7,1);(8,1);(26,1);(28,1)]);Lf [(1,1);(2,1);(11,1);(16,1);(26,1)];Lf [(7,1);(8,1);(26,1)]];
   Never (Lf [(0,2);(5,1);(14,1)]);
   Never (Lf [(3,1);(13,1);(14,1)]);
   Never (Lf [(5,1);(7,2);(14,1);(15,1)]);
   Never (Lf [(3,1);(7,1);(8,1);(13,1)]);
   Never (Lf [(0,1);(7,1);(14,1)]);
   Never (Lf [(1,1);(4,1);(6,1);(8,1);(13,1)]);
   Never (Lf [(0,1);(8,1);(15,1)]);
   Never (Lf [(4,1);(14,1)]);
   Never (Lf [(0,1);(1,1);(6,1);(13,1)]);
   Never (Lf [(5,1);(15,1)]);
   Never (Lf [(0,2);(5,1);(14,1)]);
   Never (Lf [(5,1);(14,1)]);
   Never (Lf [(0,1);(1,1);(2,2);(6,1);(13,1)]);
   Never (Lf [(7,1);(15,1);(17,1)]);
   Never (Lf [(1,1);(2,2);(5,1);(6,1);(7,1);(13,1)]);
   Never (Lf [(3,1);(7,1);(8,1);(13,1);(14,1)]);
   Never (Lf [(4,1);(15,1)]);
   Never (Lf [(3,1);(13,1)]);
   Never (Lf [(3,1);(4,1);(13,1)]);
   Never (Lf [(3,1);(4,1);(13,1)]);
   Never (Lf [(3,1);(13,1)]);
   Never (Nd 1 (Lf [(6,1);(16,1);(26,1)]) (Lf [(14,1);(27,1)]));
   Equal [Nd 4 (Lf [(17,1);(27,1)]) (Lf [(26,1);(28,1)]);Nd 8 (Lf [(8,1);(27,1)]) (Lf [(26,1);(28,1)]);Nd 6 (Lf [(2,1);(17,1);(27,1)]) (Lf [(26,1);(28,1)]);Lf [(7,1);(8,1);(26,1)];Lf [(7,1);(17,1);(26,1)];Nd 6 (Lf [(2,1);(17,1);(27,1)]) (Lf [(8,2);(26,1);(28,1)])];
   Never (Lf [(1,1);(2,2);(5,1);(6,1);(7,1);(13,1)]);
   Never (Lf [(0,1);(8,1);(14,1)]);
   Never (Lf [(0,1);(1,1);(2,2);(6,1);(13,1)]);
   Never (Nd 6 (Lf [(2,1);(6,1);(26,1)]) (Lf [(4,1);(27,1)]));
   Never (Lf [(4,2);(8,1);(15,2);(17,1)]);
   Never (Lf [(0,1);(7,1);(14,1)]);
   Never (Lf [(0,1);(1,1);(6,1);(13,1)]);
   Equal [Lf [(26,1)];Lf [(26,1)];Lf [(26,1)];Lf [(26,1)];Lf [(26,1)];Lf [(26,1)]];
   Never (Lf [(4,1);(14,1)]);
   Never (Lf [(1,1);(4,1);(6,1);(8,1);(13,1)]);
   Equal [Lf [(17,1);(18,1);(26,1)];Lf [(7,1);(8,1);(26,1)];Lf [(17,2);(26,1)];Lf [(7,2);(26,1)];Lf [(18,2);(26,1)];Lf [(8,2);(26,1)]];
   Never (Lf [(3,1);(7,1);(8,1);(13,1)]);
   Never (Lf [(2,1);(12,1);(14,1);(16,1)]);
   Equal [Nd 3 (Lf [(2,1);(12,1);(27,1)]) (Lf [(26,1);(28,1)]);Nd 9 (Lf [(7,1);(27,1)]) (Lf [(26,1);(28,1)]);Lf [(2,1);(8,1);(12,1);(26,1)];Nd 1 (Lf [(7,1);(12,1);(27,1)]) (Lf [(26,1);(28,1)]);Nd 1 (Lf [(7,1);(12,1);(27,1)]) (Lf [(2,2);(12,2);(26,1);(28,1)]);Lf [(7,1);(8,1);(26,1)]];
   Never (Lf [(0,1);(5,1);(17,1)])].
Definition certs_11 : list cert := certs_11_0 ++ certs_11_1 ++ certs_11_2 ++ certs_11_3 ++ certs_11_4 ++ certs_11_5 ++ certs_11_6.
