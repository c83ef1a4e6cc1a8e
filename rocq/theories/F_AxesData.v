(* F_AxesData.v : the sets of two-fold rotations with entries -1, 0, 1 that are closed (indices into F_Axes.twos),
   found by a search outside Coq: the kind of lattice, and a change of basis to its documented primitive cell.
   Checked in F_AxesTable.v. *)
From Verif Require Import Base.
Definition entries_data : list (list nat * nat * zmat) := ([
  ([], 13, Zm 1 0 0 0 1 0 0 0 1);
  ([0], 13, Zm 1 0 0 0 1 0 0 0 1);
  ([1], 13, Zm 1 0 0 0 1 0 0 0 1);
  ([2], 13, Zm 1 0 0 0 1 0 0 0 1);
  ([3], 13, Zm 1 0 0 0 1 0 0 0 1);
  ([4], 13, Zm 1 0 0 0 1 0 0 0 1);
  ([5], 13, Zm 1 0 0 0 1 0 0 0 1);
  ([6], 13, Zm 1 0 0 0 1 0 0 0 1);
  ([7], 13, Zm 1 0 0 0 1 0 0 0 1);
  ([8], 13, Zm 1 0 0 0 1 0 0 0 1);
  ([9], 13, Zm 1 0 0 0 1 0 0 0 1);
  ([10], 13, Zm 1 0 0 0 1 0 0 0 1);
  ([11], 13, Zm 1 0 0 0 1 0 0 0 1);
  ([12], 13, Zm 1 0 0 0 1 0 0 0 1);
  ([13], 13, Zm 1 0 0 0 1 0 0 0 1);
  ([14], 13, Zm 1 0 0 0 1 0 0 0 1);
  ([15], 13, Zm 1 0 0 0 1 0 0 0 1);
  ([16], 13, Zm 1 0 0 0 1 0 0 0 1);
  ([17], 13, Zm 1 0 0 0 1 0 0 0 1);
  ([18], 13, Zm 1 0 0 0 1 0 0 0 1);
  ([19], 13, Zm 1 0 0 0 1 0 0 0 1);
  ([20], 13, Zm 1 0 0 0 1 0 0 0 1);
  ([21], 13, Zm 1 0 0 0 1 0 0 0 1);
  ([22], 13, Zm 1 0 0 0 1 0 0 0 1);
  ([23], 13, Zm 1 0 0 0 1 0 0 0 1);
  ([24], 13, Zm 1 0 0 0 1 0 0 0 1);
  ([25], 13, Zm 1 0 0 0 1 0 0 0 1);
  ([26], 13, Zm 1 0 0 0 1 0 0 0 1);
  ([27], 13, Zm 1 0 0 0 1 0 0 0 1);
  ([28], 13, Zm 1 0 0 0 1 0 0 0 1);
  ([29], 13, Zm 1 0 0 0 1 0 0 0 1);
  ([30], 13, Zm 1 0 0 0 1 0 0 0 1);
  ([31], 13, Zm 1 0 0 0 1 0 0 0 1);
  ([32], 13, Zm 1 0 0 0 1 0 0 0 1);
  ([33], 13, Zm 1 0 0 0 1 0 0 0 1);
  ([34], 13, Zm 1 0 0 0 1 0 0 0 1);
  ([35], 13, Zm 1 0 0 0 1 0 0 0 1);
  ([36], 13, Zm 1 0 0 0 1 0 0 0 1);
  ([37], 13, Zm 1 0 0 0 1 0 0 0 1);
  ([38], 13, Zm 1 0 0 0 1 0 0 0 1);
  ([39], 13, Zm 1 0 0 0 1 0 0 0 1);
  ([40], 13, Zm 1 0 0 0 1 0 0 0 1);
  ([41], 13, Zm 1 0 0 0 1 0 0 0 1);
  ([42], 13, Zm 1 0 0 0 1 0 0 0 1);
  ([43], 13, Zm 1 0 0 0 1 0 0 0 1);
  ([44], 13, Zm 1 0 0 0 1 0 0 0 1);
  ([45], 13, Zm 1 0 0 0 1 0 0 0 1);
  ([46], 13, Zm 1 0 0 0 1 0 0 0 1);
  ([47], 13, Zm 1 0 0 0 1 0 0 0 1);
  ([48], 13, Zm 1 0 0 0 1 0 0 0 1);
  ([49], 13, Zm 1 0 0 0 1 0 0 0 1);
  ([50], 13, Zm 1 0 0 0 1 0 0 0 1);
  ([51], 13, Zm 1 0 0 0 1 0 0 0 1);
  ([52], 13, Zm 1 0 0 0 1 0 0 0 1);
  ([53], 13, Zm 1 0 0 0 1 0 0 0 1);
  ([54], 13, Zm 1 0 0 0 1 0 0 0 1);
  ([55], 13, Zm 1 0 0 0 1 0 0 0 1);
  ([56], 13, Zm 1 0 0 0 1 0 0 0 1);
  ([57], 13, Zm 1 0 0 0 1 0 0 0 1);
  ([58], 13, Zm 1 0 0 0 1 0 0 0 1);
  ([59], 13, Zm 1 0 0 0 1 0 0 0 1);
  ([60], 13, Zm 1 0 0 0 1 0 0 0 1);
  ([61], 13, Zm 1 0 0 0 1 0 0 0 1);
  ([62], 13, Zm 1 0 0 0 1 0 0 0 1);
  ([63], 13, Zm 1 0 0 0 1 0 0 0 1);
  ([64], 13, Zm 1 0 0 0 1 0 0 0 1);
  ([65], 13, Zm 1 0 0 0 1 0 0 0 1);
  ([66], 13, Zm 1 0 0 0 1 0 0 0 1);
  ([67], 13, Zm 1 0 0 0 1 0 0 0 1);
  ([68], 13, Zm 1 0 0 0 1 0 0 0 1);
  ([69], 13, Zm 1 0 0 0 1 0 0 0 1);
  ([70], 13, Zm 1 0 0 0 1 0 0 0 1);
  ([71], 13, Zm 1 0 0 0 1 0 0 0 1);
  ([72], 13, Zm 1 0 0 0 1 0 0 0 1);
  ([73], 13, Zm 1 0 0 0 1 0 0 0 1);
  ([74], 13, Zm 1 0 0 0 1 0 0 0 1);
  ([75], 13, Zm 1 0 0 0 1 0 0 0 1);
  ([76], 13, Zm 1 0 0 0 1 0 0 0 1);
  ([77], 13, Zm 1 0 0 0 1 0 0 0 1);
  ([78], 13, Zm 1 0 0 0 1 0 0 0 1);
  ([79], 13, Zm 1 0 0 0 1 0 0 0 1);
  ([80], 13, Zm 1 0 0 0 1 0 0 0 1);
  ([0; 1; 13], 6, Zm (-1) (-1) (-1) (-1) (-1) 0 (-1) 0 0);
  ([0; 5; 27], 6, Zm (-1) (-1) (-1) (-1) 0 (-1) (-1) 0 0);
  ([0; 21; 49], 6, Zm (-1) 0 (-1) 0 (-1) 0 0 0 1);
  ([0; 24; 80], 9, Zm (-1) (-1) 0 (-1) 0 0 0 0 1);
  ([0; 34; 57], 6, Zm (-1) (-1) 0 0 0 (-1) 0 1 0);
  ([0; 54; 59], 10, Zm (-1) 0 0 0 (-1) 0 0 0 (-1));
  ([0; 62; 69], 6, Zm (-1) (-1) 0 0 (-1) 0 0 0 1);
  ([0; 63; 71], 6, Zm (-1) 0 (-1) 0 0 (-1) 0 1 0);
  ([1; 19; 79], 9, Zm (-1) (-1) (-1) (-1) 0 0 0 0 (-1));
  ([1; 25; 36], 6, Zm (-1) (-1) 0 (-1) 0 0 (-1) 0 1);
  ([1; 52; 62], 10, Zm (-1) (-1) 0 0 0 (-1) 1 0 0);
  ([1; 59; 69], 6, Zm (-1) (-1) (-1) 0 (-1) (-1) 0 0 (-1));
  ([1; 60; 70], 6, Zm (-1) 0 1 0 0 1 0 1 1);
  ([2; 6; 80], 10, Zm (-1) (-1) 0 (-1) 0 (-1) 1 0 0);
  ([2; 18; 79], 8, Zm (-1) (-1) 0 (-1) 0 0 0 0 (-1));
  ([2; 31; 51], 6, Zm (-1) (-1) 0 (-1) 0 0 0 0 (-1));
  ([2; 32; 54], 6, Zm (-1) (-1) 0 (-1) 0 0 0 0 1);
  ([2; 37; 78], 10, Zm (-1) (-1) 0 (-1) 0 1 1 0 0);
  ([2; 59; 68], 6, Zm (-1) (-1) (-1) (-1) 0 (-1) 0 0 (-1));
  ([2; 60; 69], 12, Zm (-1) 0 0 0 (-1) 0 0 0 (-1));
  ([2; 61; 70], 6, Zm (-1) (-1) 1 (-1) 0 1 0 0 1);
  ([3; 4; 23], 6, Zm (-1) (-1) 0 (-1) (-1) 1 (-1) 0 0);
  ([3; 7; 24], 6, Zm (-1) (-1) 0 (-1) 0 (-1) (-1) 0 0);
  ([3; 17; 79], 9, Zm (-1) (-1) 0 (-1) 0 (-1) 0 0 (-1));
  ([3; 55; 57], 10, Zm (-1) (-1) 0 0 0 1 1 0 0);
  ([3; 60; 68], 6, Zm (-1) 0 (-1) 0 0 (-1) 0 1 (-1));
  ([3; 61; 69], 6, Zm (-1) (-1) 1 0 (-1) 1 0 0 1);
  ([4; 15; 44], 6, Zm (-1) 0 1 0 (-1) 0 0 0 (-1));
  ([4; 25; 78], 9, Zm (-1) (-1) 0 (-1) 0 0 0 0 (-1));
  ([4; 29; 38], 6, Zm (-1) (-1) 1 (-1) 0 0 (-1) 0 1);
  ([4; 34; 62], 6, Zm (-1) (-1) 0 0 0 1 0 1 0);
  ([4; 51; 61], 10, Zm (-1) 0 0 0 (-1) 0 0 0 1);
  ([4; 57; 69], 6, Zm (-1) (-1) 0 0 (-1) 0 0 0 (-1));
  ([4; 58; 73], 6, Zm (-1) 0 1 0 0 1 0 1 0);
  ([5; 25; 40], 6, Zm (-1) 0 (-1) (-1) 0 0 (-1) 1 0);
  ([5; 30; 77], 9, Zm (-1) (-1) (-1) (-1) 0 0 0 (-1) 0);
  ([5; 47; 63], 10, Zm (-1) 0 (-1) 0 (-1) 0 1 0 0);
  ([5; 54; 71], 6, Zm (-1) (-1) (-1) 0 (-1) (-1) 0 (-1) 0);
  ([5; 55; 74], 6, Zm (-1) 1 0 0 1 0 0 1 1);
  ([6; 8; 46], 6, Zm (-1) 0 (-1) (-1) 0 0 0 (-1) 0);
  ([6; 28; 77], 8, Zm (-1) 0 (-1) (-1) 0 0 0 (-1) 0);
  ([6; 32; 59], 6, Zm (-1) 0 (-1) (-1) 0 0 0 1 0);
  ([6; 41; 66], 10, Zm (-1) 0 (-1) (-1) 1 0 1 0 0);
  ([6; 54; 68], 6, Zm (-1) (-1) (-1) (-1) (-1) 0 0 (-1) 0);
  ([6; 55; 71], 12, Zm (-1) 0 0 0 0 (-1) 0 (-1) 0);
  ([6; 56; 74], 6, Zm (-1) 1 (-1) (-1) 1 0 0 1 0);
  ([7; 26; 77], 9, Zm (-1) (-1) 0 (-1) 0 (-1) 0 (-1) 0);
  ([7; 29; 39], 6, Zm (-1) 0 (-1) (-1) 0 0 (-1) 1 (-1));
  ([7; 49; 60], 10, Zm (-1) 0 (-1) 0 1 0 1 0 0);
  ([7; 55; 68], 6, Zm (-1) (-1) 0 0 (-1) 0 0 (-1) 1);
  ([7; 56; 71], 6, Zm (-1) 1 (-1) 0 1 (-1) 0 1 0);
  ([8; 12; 19], 6, Zm (-1) 1 0 0 (-1) (-1) 0 0 1);
  ([8; 22; 30], 6, Zm (-1) 0 (-1) 0 (-1) 0 0 1 1);
  ([8; 25; 74], 10, Zm (-1) 0 (-1) 0 0 1 0 1 0);
  ([8; 41; 56], 6, Zm (-1) 0 0 (-1) 1 0 0 0 1);
  ([8; 45; 63], 9, Zm (-1) 0 0 0 (-1) 0 0 0 1);
  ([8; 53; 65], 6, Zm (-1) 0 0 0 0 (-1) 1 (-1) 0);
  ([8; 59; 77], 6, Zm (-1) 0 (-1) 0 (-1) 0 1 0 0);
  ([9; 10; 17], 6, Zm (-1) 1 0 0 (-1) 1 0 0 (-1));
  ([9; 14; 26], 6, Zm (-1) 0 1 0 (-1) 0 0 1 (-1));
  ([9; 24; 76], 10, Zm (-1) 0 1 0 0 (-1) 0 1 0);
  ([9; 37; 48], 6, Zm (-1) 0 0 (-1) 0 1 0 (-1) 0);
  ([9; 41; 53], 6, Zm (-1) 0 0 (-1) 1 0 0 0 (-1));
  ([9; 50; 58], 9, Zm (-1) 0 0 0 (-1) 0 0 0 (-1));
  ([9; 56; 65], 6, Zm (-1) 0 0 0 0 1 1 (-1) 0);
  ([9; 61; 67], 6, Zm (-1) 0 0 0 1 0 1 0 (-1));
  ([10; 20; 25], 6, Zm (-1) 1 (-1) 0 (-1) 0 0 0 1);
  ([10; 23; 75], 10, Zm (-1) 1 0 0 (-1) 0 0 1 (-1));
  ([10; 52; 56], 9, Zm (-1) 0 0 0 (-1) 0 0 (-1) 1);
  ([10; 58; 65], 6, Zm (-1) 0 0 0 1 (-1) 1 (-1) 0);
  ([10; 60; 66], 6, Zm (-1) 0 0 0 1 0 1 (-1) 1);
  ([11; 15; 76], 9, Zm (-1) 0 1 0 (-1) 0 0 (-1) 1);
  ([11; 18; 75], 8, Zm (-1) 1 0 0 (-1) 0 0 0 (-1));
  ([11; 21; 74], 9, Zm (-1) 0 (-1) 0 (-1) (-1) 0 (-1) 0);
  ([11; 39; 45], 6, Zm (-1) 1 0 0 (-1) 0 0 0 (-1));
  ([11; 43; 50], 6, Zm (-1) 1 0 0 (-1) 0 0 0 1);
  ([11; 58; 64], 6, Zm (-1) 0 1 0 1 0 1 (-1) 0);
  ([11; 60; 65], 11, Zm (-1) 0 0 0 1 0 0 0 (-1));
  ([11; 63; 66], 6, Zm (-1) 0 (-1) 0 1 0 1 (-1) 0);
  ([12; 13; 75], 10, Zm (-1) 1 0 0 (-1) 0 0 1 1);
  ([12; 16; 24], 6, Zm (-1) 1 1 0 (-1) 0 0 0 (-1));
  ([12; 53; 55], 9, Zm (-1) 0 0 0 (-1) (-1) 0 (-1) 0);
  ([12; 60; 64], 6, Zm (-1) 0 0 0 1 0 1 (-1) (-1));
  ([12; 63; 65], 6, Zm (-1) 0 0 0 1 1 1 (-1) 0);
  ([13; 25; 27], 12, Zm 0 (-1) 0 0 0 (-1) (-1) 0 0);
  ([13; 30; 72], 8, Zm 0 (-1) (-1) 0 (-1) 0 (-1) 0 0);
  ([13; 35; 69], 10, Zm (-1) (-1) 0 0 (-1) (-1) 0 1 0);
  ([13; 40; 43], 6, Zm (-1) 0 0 (-1) 1 0 (-1) 1 1);
  ([13; 45; 48], 6, Zm (-1) 0 0 0 (-1) (-1) 0 (-1) 0);
  ([13; 59; 62], 6, Zm (-1) 0 0 0 1 0 0 1 1);
  ([14; 25; 33], 6, Zm (-1) (-1) 1 0 0 (-1) 0 1 0);
  ([14; 29; 73], 10, Zm (-1) 0 1 0 (-1) 1 0 0 (-1));
  ([14; 47; 61], 9, Zm (-1) 0 0 0 0 (-1) 0 1 (-1));
  ([14; 50; 67], 6, Zm (-1) 0 0 0 (-1) 1 1 0 (-1));
  ([14; 55; 78], 6, Zm (-1) (-1) 1 0 0 (-1) 1 0 0);
  ([15; 28; 73], 8, Zm (-1) 0 1 0 0 (-1) 0 (-1) 0);
  ([15; 34; 70], 9, Zm (-1) (-1) 0 0 (-1) (-1) 0 0 (-1));
  ([15; 43; 58], 6, Zm (-1) 0 1 0 0 (-1) 0 1 0);
  ([15; 50; 64], 6, Zm (-1) 0 1 0 0 (-1) 1 (-1) 0);
  ([15; 55; 67], 11, Zm (-1) 0 0 0 0 1 0 (-1) 0);
  ([15; 62; 78], 6, Zm (-1) (-1) 0 0 0 1 1 0 (-1));
  ([16; 27; 73], 10, Zm (-1) 0 1 0 0 (-1) 0 1 1);
  ([16; 30; 31], 6, Zm (-1) 0 1 0 (-1) (-1) 0 1 0);
  ([16; 48; 60], 9, Zm (-1) 0 0 0 (-1) (-1) 0 0 (-1));
  ([16; 55; 64], 6, Zm (-1) 0 0 0 0 1 1 (-1) (-1));
  ([16; 62; 67], 6, Zm (-1) 0 0 0 1 1 1 0 (-1));
  ([17; 25; 26], 11, Zm 0 (-1) 0 0 0 1 (-1) 0 0);
  ([17; 29; 72], 8, Zm 0 (-1) 1 0 0 (-1) (-1) 0 0);
  ([17; 32; 33], 6, Zm (-1) (-1) 0 0 0 1 0 1 (-1));
  ([17; 42; 65], 9, Zm (-1) 0 0 (-1) 0 1 0 (-1) 1);
  ([17; 49; 51], 6, Zm (-1) 0 0 0 (-1) 1 0 0 (-1));
  ([17; 56; 58], 6, Zm (-1) 0 0 0 0 1 0 1 (-1));
  ([18; 28; 72], 7, Zm (-1) 0 0 0 (-1) 0 0 0 (-1));
  ([18; 34; 69], 8, Zm (-1) (-1) 0 0 (-1) 0 0 0 (-1));
  ([18; 41; 65], 8, Zm (-1) 0 0 (-1) 1 0 0 0 (-1));
  ([18; 47; 60], 8, Zm (-1) 0 0 0 (-1) 0 0 0 (-1));
  ([19; 24; 30], 11, Zm 0 (-1) 0 0 0 (-1) (-1) 0 0);
  ([19; 27; 72], 8, Zm 0 (-1) (-1) 0 0 (-1) (-1) 0 0);
  ([19; 31; 35], 6, Zm (-1) (-1) 0 0 0 (-1) 0 1 1);
  ([19; 40; 65], 9, Zm (-1) 0 (-1) (-1) 0 0 0 (-1) (-1));
  ([19; 44; 54], 6, Zm (-1) 0 0 0 (-1) (-1) 0 0 1);
  ([19; 53; 63], 6, Zm (-1) 0 0 0 0 (-1) 0 1 1);
  ([20; 26; 32], 6, Zm (-1) 0 (-1) 0 (-1) 1 0 1 0);
  ([20; 29; 71], 10, Zm (-1) 0 (-1) 0 0 1 0 1 (-1));
  ([20; 46; 60], 9, Zm (-1) 0 (-1) 0 (-1) 0 0 0 (-1));
  ([20; 52; 66], 6, Zm (-1) 0 0 0 0 (-1) 1 (-1) 1);
  ([20; 57; 77], 6, Zm (-1) 0 (-1) 0 (-1) 1 1 0 0);
  ([21; 28; 71], 8, Zm (-1) 0 (-1) 0 0 (-1) 0 (-1) 0);
  ([21; 34; 68], 9, Zm (-1) (-1) (-1) 0 (-1) 0 0 0 (-1));
  ([21; 39; 63], 6, Zm (-1) 0 (-1) 0 0 1 0 1 0);
  ([21; 45; 66], 6, Zm (-1) 0 (-1) 0 0 1 1 (-1) 0);
  ([21; 52; 77], 11, Zm (-1) 0 0 0 0 (-1) 0 (-1) 0);
  ([21; 57; 80], 6, Zm (-1) (-1) 0 0 0 (-1) 1 0 1);
  ([22; 24; 35], 6, Zm (-1) (-1) (-1) 0 0 1 0 1 0);
  ([22; 27; 71], 10, Zm (-1) 0 (-1) 0 (-1) (-1) 0 0 1);
  ([22; 45; 77], 6, Zm (-1) 0 (-1) 0 1 1 1 0 0);
  ([22; 47; 59], 9, Zm (-1) 0 (-1) 0 0 (-1) 0 1 0);
  ([22; 52; 80], 6, Zm (-1) (-1) (-1) 0 0 1 1 0 0);
  ([23; 24; 29], 12, Zm 0 (-1) 0 0 0 1 (-1) 0 0);
  ([23; 26; 72], 8, Zm 0 (-1) 0 0 (-1) 1 (-1) 0 0);
  ([23; 33; 69], 10, Zm (-1) (-1) 0 0 (-1) 1 0 1 0);
  ([23; 39; 42], 6, Zm (-1) 0 0 (-1) 1 (-1) (-1) 1 0);
  ([23; 46; 50], 6, Zm (-1) 0 0 0 (-1) 0 0 (-1) 1);
  ([23; 57; 61], 6, Zm (-1) 0 0 0 1 (-1) 0 1 0);
  ([24; 25; 72], 8, Zm 0 (-1) 0 0 0 (-1) (-1) 0 0);
  ([24; 32; 68], 10, Zm (-1) (-1) 0 0 0 (-1) 0 1 0);
  ([24; 38; 42], 6, Zm (-1) 0 0 (-1) 0 1 (-1) 1 0);
  ([24; 43; 64], 9, Zm (-1) 0 0 (-1) 0 1 0 (-1) 0);
  ([24; 47; 52], 6, Zm (-1) 0 0 0 (-1) 0 0 0 (-1));
  ([24; 55; 60], 6, Zm (-1) 0 0 0 0 1 0 1 0);
  ([25; 31; 70], 10, Zm (-1) (-1) 0 0 0 1 0 1 0);
  ([25; 39; 66], 9, Zm (-1) 0 (-1) (-1) 0 0 0 (-1) 0);
  ([25; 47; 55], 6, Zm (-1) 0 0 0 (-1) 0 0 0 1);
  ([25; 52; 60], 6, Zm (-1) 0 0 0 0 (-1) 0 1 0);
  ([26; 38; 67], 9, Zm (-1) (-1) 1 (-1) 0 0 0 (-1) 0);
  ([26; 46; 57], 6, Zm (-1) 0 0 0 (-1) 0 0 1 (-1));
  ([26; 50; 61], 6, Zm (-1) 0 0 0 (-1) 1 0 1 0);
  ([27; 36; 43], 6, Zm (-1) 0 0 (-1) 0 1 (-1) 1 1);
  ([27; 44; 53], 6, Zm (-1) 0 0 0 (-1) (-1) 0 0 (-1));
  ([27; 54; 63], 6, Zm (-1) 0 0 0 0 1 0 1 1);
  ([28; 37; 67], 8, Zm (-1) 0 0 (-1) 0 1 0 (-1) 0);
  ([28; 52; 55], 8, Zm (-1) 0 0 0 0 (-1) 0 (-1) 0);
  ([29; 49; 56], 6, Zm (-1) 0 0 0 (-1) 1 0 0 1);
  ([29; 51; 58], 6, Zm (-1) 0 0 0 0 (-1) 0 1 (-1));
  ([30; 36; 67], 9, Zm (-1) (-1) 0 (-1) 0 0 0 (-1) (-1));
  ([30; 45; 59], 6, Zm (-1) 0 0 0 (-1) (-1) 0 1 0);
  ([30; 48; 62], 6, Zm (-1) 0 0 0 (-1) 0 0 1 1);
  ([31; 37; 61], 6, Zm (-1) 0 0 (-1) 0 1 0 1 0);
  ([31; 44; 62], 9, Zm (-1) 0 0 0 0 (-1) 0 1 0);
  ([31; 48; 67], 6, Zm (-1) 0 0 0 (-1) 0 1 0 (-1));
  ([31; 54; 79], 6, Zm (-1) (-1) 0 0 0 (-1) 1 0 0);
  ([32; 46; 77], 6, Zm (-1) 0 (-1) 0 1 0 1 0 0);
  ([32; 49; 57], 9, Zm (-1) 0 0 0 0 1 0 1 0);
  ([32; 51; 79], 6, Zm (-1) (-1) 0 0 0 1 1 0 0);
  ([33; 47; 78], 6, Zm (-1) (-1) 1 0 1 0 1 0 0);
  ([33; 49; 79], 6, Zm (-1) (-1) 0 0 1 (-1) 1 0 0);
  ([33; 51; 55], 9, Zm (-1) (-1) 0 0 (-1) 0 0 0 (-1));
  ([34; 44; 78], 6, Zm (-1) (-1) 0 0 1 0 1 0 (-1));
  ([34; 47; 79], 11, Zm (-1) 0 0 0 (-1) 0 0 0 (-1));
  ([34; 49; 80], 6, Zm (-1) (-1) 0 0 1 0 1 0 1);
  ([35; 44; 79], 6, Zm (-1) (-1) 0 0 1 1 1 0 0);
  ([35; 47; 80], 6, Zm (-1) (-1) (-1) 0 1 0 1 0 0);
  ([35; 52; 54], 9, Zm (-1) (-1) 0 0 (-1) 0 0 0 1);
  ([36; 44; 60], 10, Zm (-1) 0 0 0 (-1) 0 0 1 1);
  ([36; 52; 70], 6, Zm (-1) (-1) 0 0 (-1) (-1) 0 (-1) 0);
  ([36; 53; 73], 6, Zm (-1) 1 1 0 1 0 0 1 1);
  ([37; 41; 64], 10, Zm (-1) 0 0 1 (-1) 0 1 0 (-1));
  ([37; 51; 70], 6, Zm (-1) (-1) 0 (-1) (-1) 1 0 (-1) 0);
  ([37; 52; 73], 12, Zm (-1) 0 0 0 0 1 0 (-1) 0);
  ([37; 53; 76], 6, Zm (-1) 1 0 (-1) 1 1 0 1 0);
  ([38; 47; 58], 10, Zm (-1) 0 0 0 (-1) 1 0 1 0);
  ([38; 51; 73], 6, Zm (-1) (-1) 1 0 (-1) 0 0 (-1) 1);
  ([38; 52; 76], 6, Zm (-1) 1 0 0 1 (-1) 0 1 0);
  ([39; 46; 56], 10, Zm (-1) 0 0 0 0 (-1) 0 1 0);
  ([39; 49; 71], 6, Zm (-1) 0 (-1) 0 (-1) 0 0 0 (-1));
  ([39; 50; 75], 6, Zm (-1) 1 0 0 0 1 0 1 0);
  ([40; 45; 55], 10, Zm (-1) 0 0 0 0 (-1) 0 1 1);
  ([40; 47; 74], 6, Zm (-1) 0 (-1) 0 (-1) (-1) 0 0 (-1));
  ([40; 48; 75], 6, Zm (-1) 1 1 0 0 1 0 1 1);
  ([41; 46; 74], 6, Zm (-1) 0 (-1) (-1) 1 (-1) 0 0 (-1));
  ([41; 47; 75], 12, Zm (-1) 0 0 0 1 0 0 0 (-1));
  ([41; 48; 76], 6, Zm (-1) 0 1 (-1) 1 1 0 0 1);
  ([42; 46; 75], 6, Zm (-1) 1 (-1) 0 0 (-1) 0 1 (-1));
  ([42; 47; 76], 6, Zm (-1) 0 1 0 (-1) 1 0 0 1);
  ([42; 50; 52], 10, Zm (-1) 0 0 0 0 1 0 1 (-1));
  ([43; 44; 73], 6, Zm (-1) 0 1 0 (-1) 0 0 0 1);
  ([43; 45; 75], 6, Zm (-1) 1 0 0 0 (-1) 0 1 0);
  ([43; 48; 53], 10, Zm (-1) 0 0 0 0 1 0 1 0);
  ([0; 2; 6; 24; 80], 5, Zm (-1) (-1) 0 (-1) 0 (-1) 1 0 0);
  ([0; 22; 47; 54; 59], 5, Zm (-1) 0 0 0 (-1) 0 0 0 (-1));
  ([0; 24; 32; 68; 80], 5, Zm 0 (-1) 0 0 0 1 (-1) 0 (-1));
  ([0; 24; 54; 59; 80], 5, Zm 0 (-1) 0 0 0 (-1) (-1) 0 0);
  ([0; 35; 52; 54; 59], 5, Zm (-1) 0 0 0 0 (-1) 0 (-1) 0);
  ([1; 19; 52; 62; 79], 5, Zm (-1) (-1) 0 1 0 0 0 0 (-1));
  ([1; 31; 44; 52; 62], 5, Zm (-1) (-1) 0 0 0 (-1) 1 0 0);
  ([1; 35; 52; 54; 62], 5, Zm (-1) 0 0 0 0 1 0 (-1) (-1));
  ([2; 4; 25; 37; 78], 5, Zm (-1) (-1) 0 (-1) 0 1 1 0 0);
  ([3; 17; 55; 57; 79], 5, Zm (-1) (-1) 0 1 0 0 0 0 1);
  ([3; 32; 49; 55; 57], 5, Zm (-1) (-1) 0 0 0 1 1 0 0);
  ([3; 33; 51; 55; 57], 5, Zm (-1) 0 0 0 0 (-1) 0 (-1) 1);
  ([4; 14; 47; 51; 61], 5, Zm (-1) 0 0 0 (-1) 0 0 0 1);
  ([4; 25; 31; 70; 78], 5, Zm 0 (-1) 0 0 0 (-1) (-1) 0 1);
  ([4; 25; 51; 61; 78], 5, Zm 0 (-1) 0 0 0 1 (-1) 0 0);
  ([4; 33; 51; 55; 61], 5, Zm (-1) 0 0 0 0 1 0 (-1) 0);
  ([5; 8; 45; 47; 63], 5, Zm (-1) 0 (-1) 0 (-1) 0 1 0 0);
  ([5; 22; 47; 59; 63], 5, Zm (-1) 0 0 0 1 0 0 (-1) (-1));
  ([5; 30; 47; 63; 77], 5, Zm (-1) 0 (-1) 1 0 0 0 (-1) 0);
  ([6; 25; 39; 41; 66], 5, Zm (-1) 0 (-1) (-1) 1 0 1 0 0);
  ([7; 20; 46; 49; 60], 5, Zm (-1) 0 0 0 (-1) 0 0 1 (-1));
  ([7; 26; 49; 60; 77], 5, Zm (-1) 0 (-1) 1 0 0 0 1 0);
  ([7; 32; 49; 57; 60], 5, Zm (-1) 0 (-1) 0 1 0 1 0 0);
  ([8; 11; 21; 25; 74], 5, Zm (-1) 0 (-1) 0 0 1 0 1 0);
  ([8; 25; 39; 66; 74], 5, Zm 0 (-1) 0 0 0 (-1) (-1) 1 0);
  ([8; 25; 45; 63; 74], 5, Zm (-1) 0 (-1) 0 1 0 0 0 1);
  ([8; 40; 45; 55; 63], 5, Zm (-1) 0 0 0 1 1 0 0 (-1));
  ([9; 11; 15; 24; 76], 5, Zm (-1) 0 1 0 0 (-1) 0 1 0);
  ([9; 24; 43; 64; 76], 5, Zm 0 (-1) 0 0 0 1 (-1) 1 0);
  ([9; 24; 50; 58; 76], 5, Zm (-1) 0 1 0 1 0 0 0 (-1));
  ([9; 38; 47; 50; 58], 5, Zm (-1) 0 0 0 (-1) 1 0 1 0);
  ([9; 42; 50; 52; 58], 5, Zm (-1) 0 0 0 1 (-1) 0 0 1);
  ([10; 23; 52; 56; 75], 5, Zm (-1) 1 0 0 1 (-1) 0 (-1) 0);
  ([10; 39; 46; 52; 56], 5, Zm (-1) 0 0 0 0 (-1) 0 1 0);
  ([10; 42; 50; 52; 56], 5, Zm (-1) 0 0 0 0 1 0 1 (-1));
  ([12; 13; 53; 55; 75], 5, Zm (-1) 1 0 0 1 1 0 (-1) 0);
  ([12; 40; 45; 53; 55], 5, Zm (-1) 0 0 0 0 (-1) 0 1 1);
  ([12; 43; 48; 53; 55], 5, Zm (-1) 0 0 0 0 1 0 1 0);
  ([13; 35; 52; 54; 69], 5, Zm (-1) (-1) 0 0 (-1) (-1) 0 1 0);
  ([14; 29; 47; 61; 73], 5, Zm (-1) 0 1 0 (-1) 1 0 0 (-1));
  ([14; 38; 47; 58; 61], 5, Zm (-1) 0 0 0 1 0 0 (-1) 1);
  ([15; 25; 31; 34; 70], 5, Zm (-1) (-1) 0 0 1 0 0 0 1);
  ([16; 27; 48; 60; 73], 5, Zm (-1) 0 1 0 1 1 0 0 (-1));
  ([16; 36; 44; 48; 60], 5, Zm (-1) 0 0 0 (-1) 0 0 1 1);
  ([16; 43; 48; 53; 60], 5, Zm (-1) 0 0 0 1 0 0 0 1);
  ([17; 42; 50; 52; 65], 5, Zm (-1) 0 0 1 (-1) 0 0 0 1);
  ([18; 24; 25; 28; 72], 4, Zm 0 (-1) 0 0 0 (-1) (-1) 0 0);
  ([18; 28; 47; 60; 72], 4, Zm (-1) 0 0 0 (-1) 0 0 0 (-1));
  ([18; 28; 52; 55; 72], 4, Zm (-1) 0 0 0 0 (-1) 0 (-1) 0);
  ([19; 40; 45; 55; 65], 5, Zm (-1) 0 0 1 (-1) 0 0 0 (-1));
  ([20; 29; 46; 60; 71], 5, Zm (-1) 0 (-1) 0 1 (-1) 0 0 1);
  ([20; 39; 46; 56; 60], 5, Zm (-1) 0 0 0 1 0 0 0 (-1));
  ([21; 24; 32; 34; 68], 5, Zm (-1) (-1) 0 0 1 0 0 0 (-1));
  ([22; 27; 47; 59; 71], 5, Zm (-1) 0 (-1) 0 (-1) (-1) 0 0 1);
  ([23; 33; 51; 55; 69], 5, Zm (-1) (-1) 0 0 (-1) 1 0 1 0);
  ([24; 32; 49; 57; 68], 5, Zm (-1) (-1) 0 0 0 (-1) 0 1 0);
  ([24; 37; 41; 43; 64], 5, Zm (-1) 0 1 (-1) 1 0 1 0 0);
  ([24; 43; 48; 53; 64], 5, Zm 0 (-1) 0 0 0 (-1) 1 0 0);
  ([25; 31; 44; 62; 70], 5, Zm (-1) (-1) 0 0 0 1 0 1 0);
  ([25; 39; 46; 56; 66], 5, Zm 0 (-1) 0 0 0 1 1 0 0);
  ([26; 38; 47; 58; 67], 5, Zm (-1) 0 0 1 0 (-1) 0 1 0);
  ([30; 36; 44; 60; 67], 5, Zm (-1) 0 0 1 0 (-1) 0 (-1) 0);
  ([31; 36; 44; 60; 62], 5, Zm (-1) 0 0 0 1 1 0 (-1) 0);
  ([2; 18; 34; 47; 60; 69; 79], 3, Zm (-1) 0 0 0 (-1) 0 0 0 (-1));
  ([6; 21; 28; 52; 55; 71; 77], 3, Zm (-1) 0 0 0 0 (-1) 0 (-1) 0);
  ([11; 18; 41; 47; 60; 65; 75], 3, Zm (-1) 0 0 0 1 0 0 0 (-1));
  ([13; 19; 24; 25; 27; 30; 72], 3, Zm 0 (-1) 0 0 0 (-1) (-1) 0 0);
  ([15; 28; 37; 52; 55; 67; 73], 3, Zm (-1) 0 0 0 0 1 0 (-1) 0);
  ([17; 23; 24; 25; 26; 29; 72], 3, Zm 0 (-1) 0 0 0 1 (-1) 0 0);
  ([0; 1; 13; 35; 52; 54; 59; 62; 69], 1, Zm (-1) (-1) 0 0 (-1) 0 0 0 1);
  ([0; 2; 6; 24; 32; 54; 59; 68; 80], 1, Zm (-1) (-1) 0 (-1) 0 0 0 0 1);
  ([0; 5; 22; 27; 47; 54; 59; 63; 71], 1, Zm (-1) 0 (-1) 0 0 (-1) 0 1 0);
  ([0; 21; 24; 32; 34; 49; 57; 68; 80], 2, Zm (-1) (-1) 0 0 0 (-1) 0 1 0);
  ([0; 22; 24; 35; 47; 52; 54; 59; 80], 2, Zm (-1) 0 0 0 (-1) 0 0 0 (-1));
  ([1; 19; 31; 35; 44; 52; 54; 62; 79], 2, Zm (-1) (-1) 0 0 0 (-1) 1 0 0);
  ([1; 25; 31; 36; 44; 52; 60; 62; 70], 1, Zm (-1) 0 0 0 0 (-1) 0 1 0);
  ([2; 4; 25; 31; 37; 51; 61; 70; 78], 1, Zm (-1) (-1) 0 (-1) 0 0 0 0 (-1));
  ([3; 4; 23; 33; 51; 55; 57; 61; 69], 1, Zm (-1) (-1) 0 0 (-1) 0 0 0 (-1));
  ([3; 7; 24; 32; 49; 55; 57; 60; 68], 1, Zm (-1) 0 0 0 0 1 0 1 0);
  ([3; 17; 32; 33; 49; 51; 55; 57; 79], 2, Zm (-1) (-1) 0 0 0 1 1 0 0);
  ([4; 14; 25; 33; 47; 51; 55; 61; 78], 2, Zm (-1) 0 0 0 (-1) 0 0 0 1);
  ([4; 14; 29; 38; 47; 51; 58; 61; 73], 1, Zm (-1) 0 0 0 0 (-1) 0 1 (-1));
  ([4; 15; 25; 31; 34; 44; 62; 70; 78], 2, Zm (-1) (-1) 0 0 0 1 0 1 0);
  ([5; 8; 22; 30; 45; 47; 59; 63; 77], 2, Zm (-1) 0 (-1) 0 (-1) 0 1 0 0);
  ([5; 8; 25; 40; 45; 47; 55; 63; 74], 1, Zm (-1) 0 0 0 (-1) 0 0 0 1);
  ([6; 8; 25; 39; 41; 46; 56; 66; 74], 1, Zm (-1) 0 (-1) (-1) 0 0 0 (-1) 0);
  ([7; 20; 26; 32; 46; 49; 57; 60; 77], 2, Zm (-1) 0 (-1) 0 1 0 1 0 0);
  ([7; 20; 29; 39; 46; 49; 56; 60; 71], 1, Zm (-1) 0 (-1) 0 (-1) 0 0 0 (-1));
  ([8; 11; 21; 25; 39; 45; 63; 66; 74], 2, Zm (-1) 0 (-1) 0 0 1 0 1 0);
  ([8; 12; 19; 40; 45; 53; 55; 63; 65], 2, Zm (-1) 0 0 0 0 (-1) 0 1 1);
  ([9; 10; 17; 42; 50; 52; 56; 58; 65], 2, Zm (-1) 0 0 0 0 1 0 1 (-1));
  ([9; 11; 15; 24; 43; 50; 58; 64; 76], 2, Zm (-1) 0 1 0 0 (-1) 0 1 0);
  ([9; 14; 26; 38; 47; 50; 58; 61; 67], 2, Zm (-1) 0 0 0 (-1) 1 0 1 0);
  ([9; 24; 37; 41; 43; 48; 53; 64; 76], 1, Zm (-1) 0 0 (-1) 0 1 0 (-1) 0);
  ([9; 24; 38; 42; 47; 50; 52; 58; 76], 1, Zm (-1) 0 0 0 (-1) 0 0 0 (-1));
  ([10; 20; 25; 39; 46; 52; 56; 60; 66], 2, Zm (-1) 0 0 0 0 (-1) 0 1 0);
  ([10; 23; 39; 42; 46; 50; 52; 56; 75], 1, Zm (-1) 0 0 0 (-1) 0 0 (-1) 1);
  ([12; 13; 40; 43; 45; 48; 53; 55; 75], 1, Zm (-1) 0 0 0 (-1) (-1) 0 (-1) 0);
  ([12; 16; 24; 43; 48; 53; 55; 60; 64], 2, Zm (-1) 0 0 0 0 1 0 1 0);
  ([16; 27; 36; 43; 44; 48; 53; 60; 73], 1, Zm (-1) 0 0 0 (-1) (-1) 0 0 (-1));
  ([16; 30; 31; 36; 44; 48; 60; 62; 67], 2, Zm (-1) 0 0 0 (-1) 0 0 1 1);
  ([18; 24; 25; 28; 47; 52; 55; 60; 72], 0, Zm (-1) 0 0 0 (-1) 0 0 0 (-1))])%nat.
