(* T_Tables.v : data tables copied from /repo/src/wulfric/constants/*.py *)
From Verif Require Import Base M_Strings M_Dict.
Open Scope string_scope.
Open Scope R_scope.

(* /repo/src/wulfric/constants/_space_groups.py:261-492 *)
Definition CRYSTAL_FAMILY : list (Z * string) := [
   (1%Z, "a"); (2%Z, "a"); (3%Z, "m"); (4%Z, "m"); (5%Z, "m"); (6%Z, "m"); (7%Z, "m"); (8%Z, "m"); (9%Z, "m"); (10%Z, "m");
   (11%Z, "m"); (12%Z, "m"); (13%Z, "m"); (14%Z, "m"); (15%Z, "m"); (16%Z, "o"); (17%Z, "o"); (18%Z, "o"); (19%Z, "o"); (20%Z, "o");
   (21%Z, "o"); (22%Z, "o"); (23%Z, "o"); (24%Z, "o"); (25%Z, "o"); (26%Z, "o"); (27%Z, "o"); (28%Z, "o"); (29%Z, "o"); (30%Z, "o");
   (31%Z, "o"); (32%Z, "o"); (33%Z, "o"); (34%Z, "o"); (35%Z, "o"); (36%Z, "o"); (37%Z, "o"); (38%Z, "o"); (39%Z, "o"); (40%Z, "o");
   (41%Z, "o"); (42%Z, "o"); (43%Z, "o"); (44%Z, "o"); (45%Z, "o"); (46%Z, "o"); (47%Z, "o"); (48%Z, "o"); (49%Z, "o"); (50%Z, "o");
   (51%Z, "o"); (52%Z, "o"); (53%Z, "o"); (54%Z, "o"); (55%Z, "o"); (56%Z, "o"); (57%Z, "o"); (58%Z, "o"); (59%Z, "o"); (60%Z, "o");
   (61%Z, "o"); (62%Z, "o"); (63%Z, "o"); (64%Z, "o"); (65%Z, "o"); (66%Z, "o"); (67%Z, "o"); (68%Z, "o"); (69%Z, "o"); (70%Z, "o");
   (71%Z, "o"); (72%Z, "o"); (73%Z, "o"); (74%Z, "o"); (75%Z, "t"); (76%Z, "t"); (77%Z, "t"); (78%Z, "t"); (79%Z, "t"); (80%Z, "t");
   (81%Z, "t"); (82%Z, "t"); (83%Z, "t"); (84%Z, "t"); (85%Z, "t"); (86%Z, "t"); (87%Z, "t"); (88%Z, "t"); (89%Z, "t"); (90%Z, "t");
   (91%Z, "t"); (92%Z, "t"); (93%Z, "t"); (94%Z, "t"); (95%Z, "t"); (96%Z, "t"); (97%Z, "t"); (98%Z, "t"); (99%Z, "t"); (100%Z, "t");
   (101%Z, "t"); (102%Z, "t"); (103%Z, "t"); (104%Z, "t"); (105%Z, "t"); (106%Z, "t"); (107%Z, "t"); (108%Z, "t"); (109%Z, "t"); (110%Z, "t");
   (111%Z, "t"); (112%Z, "t"); (113%Z, "t"); (114%Z, "t"); (115%Z, "t"); (116%Z, "t"); (117%Z, "t"); (118%Z, "t"); (119%Z, "t"); (120%Z, "t");
   (121%Z, "t"); (122%Z, "t"); (123%Z, "t"); (124%Z, "t"); (125%Z, "t"); (126%Z, "t"); (127%Z, "t"); (128%Z, "t"); (129%Z, "t"); (130%Z, "t");
   (131%Z, "t"); (132%Z, "t"); (133%Z, "t"); (134%Z, "t"); (135%Z, "t"); (136%Z, "t"); (137%Z, "t"); (138%Z, "t"); (139%Z, "t"); (140%Z, "t");
   (141%Z, "t"); (142%Z, "t"); (143%Z, "h"); (144%Z, "h"); (145%Z, "h"); (146%Z, "h"); (147%Z, "h"); (148%Z, "h"); (149%Z, "h"); (150%Z, "h");
   (151%Z, "h"); (152%Z, "h"); (153%Z, "h"); (154%Z, "h"); (155%Z, "h"); (156%Z, "h"); (157%Z, "h"); (158%Z, "h"); (159%Z, "h"); (160%Z, "h");
   (161%Z, "h"); (162%Z, "h"); (163%Z, "h"); (164%Z, "h"); (165%Z, "h"); (166%Z, "h"); (167%Z, "h"); (168%Z, "h"); (169%Z, "h"); (170%Z, "h");
   (171%Z, "h"); (172%Z, "h"); (173%Z, "h"); (174%Z, "h"); (175%Z, "h"); (176%Z, "h"); (177%Z, "h"); (178%Z, "h"); (179%Z, "h"); (180%Z, "h");
   (181%Z, "h"); (182%Z, "h"); (183%Z, "h"); (184%Z, "h"); (185%Z, "h"); (186%Z, "h"); (187%Z, "h"); (188%Z, "h"); (189%Z, "h"); (190%Z, "h");
   (191%Z, "h"); (192%Z, "h"); (193%Z, "h"); (194%Z, "h"); (195%Z, "c"); (196%Z, "c"); (197%Z, "c"); (198%Z, "c"); (199%Z, "c"); (200%Z, "c");
   (201%Z, "c"); (202%Z, "c"); (203%Z, "c"); (204%Z, "c"); (205%Z, "c"); (206%Z, "c"); (207%Z, "c"); (208%Z, "c"); (209%Z, "c"); (210%Z, "c");
   (211%Z, "c"); (212%Z, "c"); (213%Z, "c"); (214%Z, "c"); (215%Z, "c"); (216%Z, "c"); (217%Z, "c"); (218%Z, "c"); (219%Z, "c"); (220%Z, "c");
   (221%Z, "c"); (222%Z, "c"); (223%Z, "c"); (224%Z, "c"); (225%Z, "c"); (226%Z, "c"); (227%Z, "c"); (228%Z, "c"); (229%Z, "c"); (230%Z, "c")].

(* /repo/src/wulfric/constants/_space_groups.py:496-727 *)
Definition CENTRING_TYPE : list (Z * string) := [
   (1%Z, "P"); (2%Z, "P"); (3%Z, "P"); (4%Z, "P"); (5%Z, "C"); (6%Z, "P"); (7%Z, "P"); (8%Z, "C"); (9%Z, "C"); (10%Z, "P");
   (11%Z, "P"); (12%Z, "C"); (13%Z, "P"); (14%Z, "P"); (15%Z, "C"); (16%Z, "P"); (17%Z, "P"); (18%Z, "P"); (19%Z, "P"); (20%Z, "C");
   (21%Z, "C"); (22%Z, "F"); (23%Z, "I"); (24%Z, "I"); (25%Z, "P"); (26%Z, "P"); (27%Z, "P"); (28%Z, "P"); (29%Z, "P"); (30%Z, "P");
   (31%Z, "P"); (32%Z, "P"); (33%Z, "P"); (34%Z, "P"); (35%Z, "C"); (36%Z, "C"); (37%Z, "C"); (38%Z, "A"); (39%Z, "A"); (40%Z, "A");
   (41%Z, "A"); (42%Z, "F"); (43%Z, "F"); (44%Z, "I"); (45%Z, "I"); (46%Z, "I"); (47%Z, "P"); (48%Z, "P"); (49%Z, "P"); (50%Z, "P");
   (51%Z, "P"); (52%Z, "P"); (53%Z, "P"); (54%Z, "P"); (55%Z, "P"); (56%Z, "P"); (57%Z, "P"); (58%Z, "P"); (59%Z, "P"); (60%Z, "P");
   (61%Z, "P"); (62%Z, "P"); (63%Z, "C"); (64%Z, "C"); (65%Z, "C"); (66%Z, "C"); (67%Z, "C"); (68%Z, "C"); (69%Z, "F"); (70%Z, "F");
   (71%Z, "I"); (72%Z, "I"); (73%Z, "I"); (74%Z, "I"); (75%Z, "P"); (76%Z, "P"); (77%Z, "P"); (78%Z, "P"); (79%Z, "I"); (80%Z, "I");
   (81%Z, "P"); (82%Z, "I"); (83%Z, "P"); (84%Z, "P"); (85%Z, "P"); (86%Z, "P"); (87%Z, "I"); (88%Z, "I"); (89%Z, "P"); (90%Z, "P");
   (91%Z, "P"); (92%Z, "P"); (93%Z, "P"); (94%Z, "P"); (95%Z, "P"); (96%Z, "P"); (97%Z, "I"); (98%Z, "I"); (99%Z, "P"); (100%Z, "P");
   (101%Z, "P"); (102%Z, "P"); (103%Z, "P"); (104%Z, "P"); (105%Z, "P"); (106%Z, "P"); (107%Z, "I"); (108%Z, "I"); (109%Z, "I"); (110%Z, "I");
   (111%Z, "P"); (112%Z, "P"); (113%Z, "P"); (114%Z, "P"); (115%Z, "P"); (116%Z, "P"); (117%Z, "P"); (118%Z, "P"); (119%Z, "I"); (120%Z, "I");
   (121%Z, "I"); (122%Z, "I"); (123%Z, "P"); (124%Z, "P"); (125%Z, "P"); (126%Z, "P"); (127%Z, "P"); (128%Z, "P"); (129%Z, "P"); (130%Z, "P");
   (131%Z, "P"); (132%Z, "P"); (133%Z, "P"); (134%Z, "P"); (135%Z, "P"); (136%Z, "P"); (137%Z, "P"); (138%Z, "P"); (139%Z, "I"); (140%Z, "I");
   (141%Z, "I"); (142%Z, "I"); (143%Z, "P"); (144%Z, "P"); (145%Z, "P"); (146%Z, "R"); (147%Z, "P"); (148%Z, "R"); (149%Z, "P"); (150%Z, "P");
   (151%Z, "P"); (152%Z, "P"); (153%Z, "P"); (154%Z, "P"); (155%Z, "R"); (156%Z, "P"); (157%Z, "P"); (158%Z, "P"); (159%Z, "P"); (160%Z, "R");
   (161%Z, "R"); (162%Z, "P"); (163%Z, "P"); (164%Z, "P"); (165%Z, "P"); (166%Z, "R"); (167%Z, "R"); (168%Z, "P"); (169%Z, "P"); (170%Z, "P");
   (171%Z, "P"); (172%Z, "P"); (173%Z, "P"); (174%Z, "P"); (175%Z, "P"); (176%Z, "P"); (177%Z, "P"); (178%Z, "P"); (179%Z, "P"); (180%Z, "P");
   (181%Z, "P"); (182%Z, "P"); (183%Z, "P"); (184%Z, "P"); (185%Z, "P"); (186%Z, "P"); (187%Z, "P"); (188%Z, "P"); (189%Z, "P"); (190%Z, "P");
   (191%Z, "P"); (192%Z, "P"); (193%Z, "P"); (194%Z, "P"); (195%Z, "P"); (196%Z, "F"); (197%Z, "I"); (198%Z, "P"); (199%Z, "I"); (200%Z, "P");
   (201%Z, "P"); (202%Z, "F"); (203%Z, "F"); (204%Z, "I"); (205%Z, "P"); (206%Z, "I"); (207%Z, "P"); (208%Z, "P"); (209%Z, "F"); (210%Z, "F");
   (211%Z, "I"); (212%Z, "P"); (213%Z, "P"); (214%Z, "I"); (215%Z, "P"); (216%Z, "F"); (217%Z, "I"); (218%Z, "P"); (219%Z, "F"); (220%Z, "I");
   (221%Z, "P"); (222%Z, "P"); (223%Z, "P"); (224%Z, "P"); (225%Z, "F"); (226%Z, "F"); (227%Z, "F"); (228%Z, "F"); (229%Z, "I"); (230%Z, "I")].

(* /repo/src/wulfric/constants/_space_groups.py:27-258 *)
Definition INVERSION_SYMMETRY : list (Z * bool) := [
   (1%Z, false); (2%Z, true); (3%Z, false); (4%Z, false); (5%Z, false); (6%Z, false); (7%Z, false); (8%Z, false); (9%Z, false); (10%Z, true);
   (11%Z, true); (12%Z, true); (13%Z, true); (14%Z, true); (15%Z, true); (16%Z, false); (17%Z, false); (18%Z, false); (19%Z, false); (20%Z, false);
   (21%Z, false); (22%Z, false); (23%Z, false); (24%Z, false); (25%Z, false); (26%Z, false); (27%Z, false); (28%Z, false); (29%Z, false); (30%Z, false);
   (31%Z, false); (32%Z, false); (33%Z, false); (34%Z, false); (35%Z, false); (36%Z, false); (37%Z, false); (38%Z, false); (39%Z, false); (40%Z, false);
   (41%Z, false); (42%Z, false); (43%Z, false); (44%Z, false); (45%Z, false); (46%Z, false); (47%Z, true); (48%Z, true); (49%Z, true); (50%Z, true);
   (51%Z, true); (52%Z, true); (53%Z, true); (54%Z, true); (55%Z, true); (56%Z, true); (57%Z, true); (58%Z, true); (59%Z, true); (60%Z, true);
   (61%Z, true); (62%Z, true); (63%Z, true); (64%Z, true); (65%Z, true); (66%Z, true); (67%Z, true); (68%Z, true); (69%Z, true); (70%Z, true);
   (71%Z, true); (72%Z, true); (73%Z, true); (74%Z, true); (75%Z, false); (76%Z, false); (77%Z, false); (78%Z, false); (79%Z, false); (80%Z, false);
   (81%Z, false); (82%Z, false); (83%Z, true); (84%Z, true); (85%Z, true); (86%Z, true); (87%Z, true); (88%Z, true); (89%Z, false); (90%Z, false);
   (91%Z, false); (92%Z, false); (93%Z, false); (94%Z, false); (95%Z, false); (96%Z, false); (97%Z, false); (98%Z, false); (99%Z, false); (100%Z, false);
   (101%Z, false); (102%Z, false); (103%Z, false); (104%Z, false); (105%Z, false); (106%Z, false); (107%Z, false); (108%Z, false); (109%Z, false); (110%Z, false);
   (111%Z, false); (112%Z, false); (113%Z, false); (114%Z, false); (115%Z, false); (116%Z, false); (117%Z, false); (118%Z, false); (119%Z, false); (120%Z, false);
   (121%Z, false); (122%Z, false); (123%Z, true); (124%Z, true); (125%Z, true); (126%Z, true); (127%Z, true); (128%Z, true); (129%Z, true); (130%Z, true);
   (131%Z, true); (132%Z, true); (133%Z, true); (134%Z, true); (135%Z, true); (136%Z, true); (137%Z, true); (138%Z, true); (139%Z, true); (140%Z, true);
   (141%Z, true); (142%Z, true); (143%Z, false); (144%Z, false); (145%Z, false); (146%Z, false); (147%Z, true); (148%Z, true); (149%Z, false); (150%Z, false);
   (151%Z, false); (152%Z, false); (153%Z, false); (154%Z, false); (155%Z, false); (156%Z, false); (157%Z, false); (158%Z, false); (159%Z, false); (160%Z, false);
   (161%Z, false); (162%Z, true); (163%Z, true); (164%Z, true); (165%Z, true); (166%Z, true); (167%Z, true); (168%Z, false); (169%Z, false); (170%Z, false);
   (171%Z, false); (172%Z, false); (173%Z, false); (174%Z, false); (175%Z, true); (176%Z, true); (177%Z, false); (178%Z, false); (179%Z, false); (180%Z, false);
   (181%Z, false); (182%Z, false); (183%Z, false); (184%Z, false); (185%Z, false); (186%Z, false); (187%Z, false); (188%Z, false); (189%Z, false); (190%Z, false);
   (191%Z, true); (192%Z, true); (193%Z, true); (194%Z, true); (195%Z, false); (196%Z, false); (197%Z, false); (198%Z, false); (199%Z, false); (200%Z, true);
   (201%Z, true); (202%Z, true); (203%Z, true); (204%Z, true); (205%Z, true); (206%Z, true); (207%Z, false); (208%Z, false); (209%Z, false); (210%Z, false);
   (211%Z, false); (212%Z, false); (213%Z, false); (214%Z, false); (215%Z, false); (216%Z, false); (217%Z, false); (218%Z, false); (219%Z, false); (220%Z, false);
   (221%Z, true); (222%Z, true); (223%Z, true); (224%Z, true); (225%Z, true); (226%Z, true); (227%Z, true); (228%Z, true); (229%Z, true); (230%Z, true)].

(* /repo/src/wulfric/constants/_bravais_lattices.py:25-41 *)
Definition BRAVAIS_LATTICES : list string := [
   "cP"; "cF"; "cI"; "tP"; "tI"; "oP"; "oF"; "oI"; "oA"; "oC"; "hP"; "hR"; "mP"; "mC"; "aP"].

(* /repo/src/wulfric/constants/_sc_convention.py:35-51 *)
Definition SC_BRAVAIS_LATTICE_SHORT_NAMES : dict string := [
   ("cP", "CUB"); ("cF", "FCC"); ("cI", "BCC"); ("tP", "TET"); ("tI", "BCT");
   ("oP", "ORC"); ("oF", "ORCF"); ("oI", "ORCI"); ("oA", "ORCC"); ("oC", "ORCC");
   ("hP", "HEX"); ("hR", "RHL"); ("mP", "MCL"); ("mC", "MCLC"); ("aP", "TRI")].

(* /repo/src/wulfric/constants/_sc_convention.py:71-177 *)
Definition SC_CONVENTIONAL_TO_PRIMITIVE : dict mat := [
   ("cP", mk 1 0 0 0 1 0 0 0 1);
   ("cF", mk 0 (1/2) (1/2) (1/2) 0 (1/2) (1/2) (1/2) 0);
   ("cI", mk (-1/2) (1/2) (1/2) (1/2) (-1/2) (1/2) (1/2) (1/2) (-1/2));
   ("tP", mk 1 0 0 0 1 0 0 0 1);
   ("tI", mk (-1/2) (1/2) (1/2) (1/2) (-1/2) (1/2) (1/2) (1/2) (-1/2));
   ("oP", mk 1 0 0 0 1 0 0 0 1);
   ("oF", mk 0 (1/2) (1/2) (1/2) 0 (1/2) (1/2) (1/2) 0);
   ("oI", mk (-1/2) (1/2) (1/2) (1/2) (-1/2) (1/2) (1/2) (1/2) (-1/2));
   ("oA", mk (1/2) (1/2) 0 (-1/2) (1/2) 0 0 0 1);
   ("oC", mk (1/2) (1/2) 0 (-1/2) (1/2) 0 0 0 1);
   ("hP", mk 1 0 0 0 1 0 0 0 1);
   ("hR", mk 1 0 0 0 1 0 0 0 1);
   ("mP", mk 1 0 0 0 1 0 0 0 1);
   ("mC", mk (1/2) (-1/2) 0 (1/2) (1/2) 0 0 0 1);
   ("aP", mk 1 0 0 0 1 0 0 0 1)].

(* /repo/src/wulfric/constants/_sc_convention.py:179-205 *)
Definition SC_BRAVAIS_LATTICE_VARIATIONS : list string := [
   "CUB"; "FCC"; "BCC"; "TET"; "BCT1"; "BCT2"; "ORC"; "ORCF1"; "ORCF2"; "ORCF3";
   "ORCI"; "ORCC"; "HEX"; "RHL1"; "RHL2"; "MCL"; "MCLC1"; "MCLC2"; "MCLC3"; "MCLC4";
   "MCLC5"; "TRI1a"; "TRI2a"; "TRI1b"; "TRI2b"].

(* /repo/src/wulfric/constants/_sc_convention.py:207-233 *)
Definition SC_DEFAULT_K_PATHS : dict string := [
   ("CUB", "GAMMA-X-M-GAMMA-R-X|M-R");
   ("FCC", "GAMMA-X-W-K-GAMMA-L-U-W-L-K|U-X");
   ("BCC", "GAMMA-H-N-GAMMA-P-H|P-N");
   ("TET", "GAMMA-X-M-GAMMA-Z-R-A-Z|X-R|M-A");
   ("BCT1", "GAMMA-X-M-GAMMA-Z-P-N-Z1-M|X-P");
   ("BCT2", "GAMMA-X-Y-SIGMA-GAMMA-Z-SIGMA1-N-P-Y1-Z|X-P");
   ("ORC", "GAMMA-X-S-Y-GAMMA-Z-U-R-T-Z|Y-T|U-X|S-R");
   ("ORCF1", "GAMMA-Y-T-Z-GAMMA-X-A1-Y|T-X1|X-A-Z|L-GAMMA");
   ("ORCF2", "GAMMA-Y-C-D-X-GAMMA-Z-D1-H-C|C1-Z|X-H1|H-Y|L-GAMMA");
   ("ORCF3", "GAMMA-Y-T-Z-GAMMA-X-A1-Y|X-A-Z|L-GAMMA");
   ("ORCI", "GAMMA-X-L-T-W-R-X1-Z-GAMMA-Y-S-W|L1-Y|Y1-Z");
   ("ORCC", "GAMMA-X-S-R-A-Z-GAMMA-Y-X1-A1-T-Y|Z-T");
   ("HEX", "GAMMA-M-K-GAMMA-A-L-H-A|L-M|K-H");
   ("RHL1", "GAMMA-L-B1|B-Z-GAMMA-X|Q-F-P1-Z|L-P");
   ("RHL2", "GAMMA-P-Z-Q-GAMMA-F-P1-Q1-L-Z");
   ("MCL", "GAMMA-Y-H-C-E-M1-A-X-H1|M-D-Z|Y-D");
   ("MCLC1", "GAMMA-Y-F-L-I|I1-Z-F1|Y-X1|X-GAMMA-N|M-GAMMA");
   ("MCLC2", "GAMMA-Y-F-L-I|I1-Z-F1|N-GAMMA-M");
   ("MCLC3", "GAMMA-Y-F-H-Z-I-F1|H1-Y1-X-GAMMA-N|M-GAMMA");
   ("MCLC4", "GAMMA-Y-F-H-Z-I|H1-Y1-X-GAMMA-N|M-GAMMA");
   ("MCLC5", "GAMMA-Y-F-L-I|I1-Z-H-F1|H1-Y1-X-GAMMA-N|M-GAMMA");
   ("TRI1a", "X-GAMMA-Y|L-GAMMA-Z|N-GAMMA-M|R-GAMMA");
   ("TRI2a", "X-GAMMA-Y|L-GAMMA-Z|N-GAMMA-M|R-GAMMA");
   ("TRI1b", "X-GAMMA-Y|L-GAMMA-Z|N-GAMMA-M|R-GAMMA");
   ("TRI2b", "X-GAMMA-Y|L-GAMMA-Z|N-GAMMA-M|R-GAMMA")].

(* /repo/src/wulfric/constants/_hpkot_convention.py:34-140 *)
Definition HPKOT_CONVENTIONAL_TO_PRIMITIVE : dict mat := [
   ("cP", mk 1 0 0 0 1 0 0 0 1);
   ("cF", mk 0 (1/2) (1/2) (1/2) 0 (1/2) (1/2) (1/2) 0);
   ("cI", mk (-1/2) (1/2) (1/2) (1/2) (-1/2) (1/2) (1/2) (1/2) (-1/2));
   ("tP", mk 1 0 0 0 1 0 0 0 1);
   ("tI", mk (-1/2) (1/2) (1/2) (1/2) (-1/2) (1/2) (1/2) (1/2) (-1/2));
   ("oP", mk 1 0 0 0 1 0 0 0 1);
   ("oF", mk 0 (1/2) (1/2) (1/2) 0 (1/2) (1/2) (1/2) 0);
   ("oI", mk (-1/2) (1/2) (1/2) (1/2) (-1/2) (1/2) (1/2) (1/2) (-1/2));
   ("oA", mk 0 0 1 (1/2) (1/2) 0 (-1/2) (1/2) 0);
   ("oC", mk (1/2) (1/2) 0 (-1/2) (1/2) 0 0 0 1);
   ("hP", mk 1 0 0 0 1 0 0 0 1);
   ("hR", mk 1 (-1/2) (-1/2) (1/2) (1/2) (-1) (1/2) (1/2) (1/2));
   ("mP", mk 1 0 0 0 1 0 0 0 1);
   ("mC", mk (1/2) (-1/2) 0 (1/2) (1/2) 0 0 0 1);
   ("aP", mk 1 0 0 0 1 0 0 0 1)].

(* /repo/src/wulfric/constants/_hpkot_convention.py:142-172 *)
Definition HPKOT_DEFAULT_K_PATHS : dict string := [
   ("cP1", "GAMMA-X-M-GAMMA-R-X|R-M-X1");
   ("cP2", "GAMMA-X-M-GAMMA-R-X|R-M");
   ("cF1", "GAMMA-X-U|K-GAMMA-L-W-X-W2");
   ("cF2", "GAMMA-X-U|K-GAMMA-L-W-X");
   ("cI1", "GAMMA-H-N-GAMMA-P-H|P-N");
   ("tP1", "GAMMA-X-M-GAMMA-Z-R-A-Z|X-R|M-A");
   ("tI1", "GAMMA-X-M-GAMMA-Z|Z0-M|X-P-N-GAMMA");
   ("tI2", "GAMMA-X-P-N-GAMMA-M-S|S0-GAMMA|X-R|G-M");
   ("oP1", "GAMMA-X-S-Y-GAMMA-Z-U-R-T-Z|X-U|Y-T|S-R");
   ("oF1", "GAMMA-Y-T-Z-GAMMA-SIGMA0|U0-T|Y-C0|A0-Z|GAMMA-L");
   ("oF2", "GAMMA-T-Z-Y-GAMMA-LAMBDA0|Q0-Z|T-G0|H0-Y|GAMMA-L");
   ("oF3", "GAMMA-Y-C0|A0-Z-B0|D0-T-G0|H0-Y|T-GAMMA-Z|GAMMA-L");
   ("oI1", "GAMMA-X-F2|SIGMA0-GAMMA-Y0|U0-X|GAMMA-R-W-S-GAMMA-T-W");
   ("oI2", "GAMMA-X-U2|Y0-GAMMA-LAMBDA0|G2-X|GAMMA-R-W-S-GAMMA-T-W");
   ("oI3", "GAMMA-X-F0|SIGMA0-GAMMA-LAMBDA0|G0-X|GAMMA-R-W-S-GAMMA-T-W");
   ("oC1", "GAMMA-Y-C0|SIGMA0-GAMMA-Z-A0|E0-T-Y|GAMMA-S-R-Z-T");
   ("oC2", "GAMMA-Y-F0|DELTA0-GAMMA-Z-B0|G0-T-Y|GAMMA-S-R-Z-T");
   ("oA1", "GAMMA-Y-C0|SIGMA0-GAMMA-Z-A0|E0-T-Y|GAMMA-S-R-Z-T");
   ("oA2", "GAMMA-Y-F0|DELTA0-GAMMA-Z-B0|G0-T-Y|GAMMA-S-R-Z-T");
   ("hP1", "GAMMA-M-K-GAMMA-A-L-H-A|L-M|H-K-H2");
   ("hP2", "GAMMA-M-K-GAMMA-A-L-H-A|L-M|H-K");
   ("hR1", "GAMMA-T-H2|H0-L-GAMMA-S0|S2-F-GAMMA");
   ("hR2", "GAMMA-L-T-P0|P2-GAMMA-F");
   ("mP1", "GAMMA-Z-D-B-GAMMA-A-E-Z-C2-Y2-GAMMA");
   ("mC1", "GAMMA-C|C2-Y2-GAMMA-M2-D|D2-A-GAMMA|L2-GAMMA-V2");
   ("mC2", "GAMMA-Y-M-A-GAMMA|L2-GAMMA-V2");
   ("mC3", "GAMMA-A-I2|I-M2-GAMMA-Y|L2-GAMMA-V2");
   ("aP2", "GAMMA-X|Y-GAMMA-Z|R-GAMMA-T|U-GAMMA-V");
   ("aP3", "GAMMA-X|Y-GAMMA-Z|R2-GAMMA-T2|U2-GAMMA-V2")].

(* /repo/src/wulfric/constants/_hpkot_convention.py:174-204 *)
Definition HPKOT_EXTENDED_BL_SYMBOLS : list string := [
   "cP1"; "cP2"; "cF1"; "cF2"; "cI1"; "tP1"; "tI1"; "tI2"; "oP1"; "oF1";
   "oF2"; "oF3"; "oI1"; "oI2"; "oI3"; "oC1"; "oC2"; "oA1"; "oA2"; "hP1";
   "hP2"; "hR1"; "hR2"; "mP1"; "mC1"; "mC2"; "mC3"; "aP2"; "aP3"].

(* python dict with int keys [/repo/src/wulfric/_spglib_interface.py:114-115] *)
Fixpoint zlookup {A} (k : Z) (d : list (Z * A)) : option A :=
  match d with [] => None | (k', v) :: d' => if Z.eqb k k' then Some v else zlookup k d' end.
(* /repo/src/wulfric/_spglib_interface.py:114-115; kpoints/_path_and_points.py:317 *)
Definition zgetitem {A} (k : Z) (d : list (Z * A)) : res A :=
  match zlookup k d with Some v => Ok v | None => Err KeyError end.
