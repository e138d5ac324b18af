(** Certificate for the rows of fivept_kneip/init.cpp: 64 of the 114 entries
    determine the others linearly.  [kn_par] lists their columns; the entry
    (c, f) of [kn_form] says that column c is the sum of z times the k-th of
    them over (k, z) in f.  Written by tools/gen_kneip_forms.py.  Definitions only. *)
From Coq Require Import List ZArith.
Import ListNotations.
Definition kn_par : list nat := [
  0; 1; 2; 3; 4; 5; 6; 10; 11; 12; 14; 15; 18; 26; 27; 30; 39; 40; 41; 42; 43; 44; 45; 46;
  47; 48; 49; 50; 51; 52; 53; 54; 55; 56; 57; 58; 59; 60; 64; 65; 66; 68; 69; 73; 76; 77; 78; 79;
  80; 81; 83; 84; 86; 87; 91; 94; 105; 109; 119; 120; 122; 123; 127; 130]%nat.
Definition kn_form : list (nat * list (nat * Z)) := [
  (0, [(0, 1%Z)]); (1, [(1, 1%Z)]); (2, [(2, 1%Z)]); (3, [(3, 1%Z)]); (4, [(4, 1%Z)]); (5, [(5, 1%Z)]);
  (6, [(6, 1%Z)]); (7, [(0, (-1)%Z)]); (8, [(1, (-1)%Z)]); (10, [(7, 1%Z)]); (11, [(8, 1%Z)]); (12, [(9, 1%Z)]);
  (13, [(5, (-1)%Z)]); (14, [(10, 1%Z)]); (15, [(11, 1%Z)]); (16, [(10, (-1)%Z)]); (18, [(12, 1%Z)]); (19, [(2, (-1)%Z)]);
  (20, [(3, (-1)%Z); (7, (-1)%Z)]); (21, [(8, (-1)%Z)]); (22, [(4, (-1)%Z)]); (23, [(9, (-1)%Z)]); (25, [(6, (-1)%Z)]); (26, [(13, 1%Z)]);
  (27, [(14, 1%Z)]); (28, [(11, (-1)%Z); (13, (-1)%Z)]); (29, [(12, (-1)%Z)]); (30, [(15, 1%Z)]); (33, [(14, (-1)%Z)]); (34, [(15, (-1)%Z)]);
  (39, [(16, 1%Z)]); (40, [(17, 1%Z)]); (41, [(18, 1%Z)]); (42, [(19, 1%Z)]); (43, [(20, 1%Z)]); (44, [(21, 1%Z)]);
  (45, [(22, 1%Z)]); (46, [(23, 1%Z)]); (47, [(24, 1%Z)]); (48, [(25, 1%Z)]); (49, [(26, 1%Z)]); (50, [(27, 1%Z)]);
  (51, [(28, 1%Z)]); (52, [(29, 1%Z)]); (53, [(30, 1%Z)]); (54, [(31, 1%Z)]); (55, [(32, 1%Z)]); (56, [(33, 1%Z)]);
  (57, [(34, 1%Z)]); (58, [(35, 1%Z)]); (59, [(36, 1%Z)]); (60, [(37, 1%Z)]); (61, [(16, (-1)%Z)]); (62, [(17, (-1)%Z)]);
  (64, [(38, 1%Z)]); (65, [(39, 1%Z)]); (66, [(40, 1%Z)]); (67, [(21, (-1)%Z); (23, (-1)%Z)]); (68, [(41, 1%Z)]); (69, [(42, 1%Z)]);
  (70, [(26, (-1)%Z)]); (71, [(24, (-1)%Z); (41, (-1)%Z)]); (73, [(43, 1%Z)]); (74, [(27, (-1)%Z)]); (76, [(44, 1%Z)]); (77, [(45, 1%Z)]);
  (78, [(46, 1%Z)]); (79, [(47, 1%Z)]); (80, [(48, 1%Z)]); (81, [(49, 1%Z)]); (82, [(34, (-1)%Z)]); (83, [(50, 1%Z)]);
  (84, [(51, 1%Z)]); (85, [(36, (-1)%Z)]); (86, [(52, 1%Z)]); (87, [(53, 1%Z)]); (89, [(50, (-1)%Z)]); (91, [(54, 1%Z)]);
  (92, [(52, (-1)%Z)]); (94, [(55, 1%Z)]); (97, [(18, (-1)%Z)]); (98, [(19, (-1)%Z); (38, (-1)%Z)]); (99, [(39, (-1)%Z)]); (100, [(20, (-1)%Z)]);
  (101, [(40, (-1)%Z)]); (103, [(22, (-1)%Z); (28, (-1)%Z)]); (104, [(25, (-1)%Z); (44, (-1)%Z)]); (105, [(56, 1%Z)]); (106, [(31, (-1)%Z)]); (107, [(29, (-1)%Z); (42, (-1)%Z)]);
  (108, [(43, (-1)%Z); (45, (-1)%Z)]); (109, [(57, 1%Z)]); (110, [(32, (-1)%Z); (47, (-1)%Z)]); (111, [(48, (-1)%Z)]); (112, [(30, (-1)%Z); (56, (-1)%Z)]); (113, [(46, (-1)%Z); (57, (-1)%Z)]);
  (115, [(33, (-1)%Z)]); (116, [(49, (-1)%Z)]); (118, [(35, (-1)%Z)]); (119, [(58, 1%Z)]); (120, [(59, 1%Z)]); (121, [(37, (-1)%Z)]);
  (122, [(60, 1%Z)]); (123, [(61, 1%Z)]); (125, [(51, (-1)%Z); (58, (-1)%Z)]); (126, [(54, (-1)%Z)]); (127, [(62, 1%Z)]); (128, [(53, (-1)%Z); (60, (-1)%Z)]);
  (129, [(55, (-1)%Z)]); (130, [(63, 1%Z)]); (133, [(59, (-1)%Z)]); (134, [(62, (-1)%Z)]); (136, [(61, (-1)%Z)]); (137, [(63, (-1)%Z)])]%nat.
(** the entries of KneipData.kn_const as integers *)
Definition kn_constZ : list (nat * nat * Z) := [
  (10,169,1%Z); (10,177,1%Z); (10,186,1%Z); (10,196,(-1)%Z); (11,166,1%Z); (11,174,1%Z); (11,183,1%Z); (12,163,1%Z); (12,171,1%Z); (12,180,1%Z);
  (13,151,1%Z); (13,156,1%Z); (13,162,1%Z); (13,196,(-1)%Z); (14,148,1%Z); (14,153,1%Z); (14,159,1%Z); (15,142,1%Z); (15,144,1%Z); (15,147,1%Z);
  (15,196,(-1)%Z); (16,154,(-1)%Z); (16,158,1%Z); (16,193,(-1)%Z); (17,172,1%Z); (17,179,(-1)%Z); (17,190,(-1)%Z); (18,175,(-1)%Z); (18,182,1%Z); (18,187,(-1)%Z);
  (19,149,(-1)%Z); (19,152,1%Z); (19,195,(-1)%Z); (20,164,1%Z); (20,170,(-1)%Z); (20,192,(-1)%Z); (21,167,(-1)%Z); (21,173,1%Z); (21,189,(-1)%Z); (22,147,1%Z);
  (22,162,1%Z); (22,186,1%Z); (22,196,(-1)%Z); (23,146,1%Z); (23,161,1%Z); (23,185,1%Z); (24,145,1%Z); (24,160,1%Z); (24,184,1%Z); (25,144,1%Z);
  (25,156,1%Z); (25,177,1%Z); (25,196,(-1)%Z); (26,143,1%Z); (26,155,1%Z); (26,176,1%Z); (27,168,1%Z); (27,181,(-1)%Z); (27,188,(-1)%Z); (28,150,1%Z);
  (28,157,(-1)%Z); (28,194,(-1)%Z); (29,165,(-1)%Z); (29,178,1%Z); (29,191,(-1)%Z)]%nat.
