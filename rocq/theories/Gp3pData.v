(** Generated by tools/gen_gp3p.py from the Groebner template
    src/absolute_pose/modules/gp3p: each sPolynomial and groebnerRow function and
    the statement sequence of compute.  Definitions only. *)
From Coq Require Import List.
From Verif Require Import GbModel.
Import ListNotations.

(** * gp3p: 48 x 85 matrix, groebnerMatrix of src/absolute_pose/modules/gp3p/ *)
Definition gp_rows := 48.
Definition gp_cols := 85.
(** exponents of the monomial of each column, src/absolute_pose/modules/gp3p/ *)
Definition gp_mon : list (list nat) := [[1;1;1;0;0;1];[1;1;1;0;1;0];[1;1;1;1;0;0];[1;2;0;0;0;1];[1;2;0;0;1;0];[1;2;0;1;0;0];[2;0;1;0;0;1];[2;0;1;0;1;0];[2;0;1;1;0;0];[2;1;0;0;0;1];[2;1;0;0;1;0];[2;1;0;1;0;0];[3;0;0;0;0;1];[3;0;0;0;1;0];[3;0;0;1;0;0];[3;1;0;0;0;0];[0;0;1;1;0;1];[0;0;1;1;1;0];[0;0;1;2;0;0];[0;0;2;0;0;1];[0;0;2;0;1;0];[0;0;2;1;0;0];[0;1;0;0;0;2];[0;1;0;0;1;1];[0;1;0;0;2;0];[0;1;0;1;0;1];[0;1;0;1;1;0];[0;1;0;2;0;0];[0;1;1;0;0;1];[0;1;1;0;1;0];[0;1;1;1;0;0];[0;2;0;0;0;1];[0;2;0;0;1;0];[0;2;0;1;0;0];[0;2;1;0;0;0];[0;3;0;0;0;0];[1;0;0;0;0;2];[1;0;0;0;1;1];[1;0;0;0;2;0];[1;0;0;1;0;1];[1;0;0;1;1;0];[1;0;0;2;0;0];[1;0;1;0;0;1];[1;0;1;0;1;0];[1;0;1;1;0;0];[1;0;2;0;0;0];[1;1;0;0;0;1];[1;1;0;0;1;0];[1;1;0;1;0;0];[1;1;1;0;0;0];[1;2;0;0;0;0];[2;0;0;0;0;1];[2;0;0;0;1;0];[2;0;0;1;0;0];[2;0;1;0;0;0];[2;1;0;0;0;0];[3;0;0;0;0;0];[0;0;0;0;0;2];[0;0;0;0;1;1];[0;0;0;0;2;0];[0;0;0;1;0;1];[0;0;0;1;1;0];[0;0;0;2;0;0];[0;0;1;0;0;1];[0;0;1;0;1;0];[0;0;1;1;0;0];[0;0;2;0;0;0];[0;1;0;0;0;1];[0;1;0;0;1;0];[0;1;0;1;0;0];[0;1;1;0;0;0];[0;2;0;0;0;0];[1;0;0;0;0;1];[1;0;0;0;1;0];[1;0;0;1;0;0];[1;0;1;0;0;0];[1;1;0;0;0;0];[2;0;0;0;0;0];[0;0;0;0;0;1];[0;0;0;0;1;0];[0;0;0;1;0;0];[0;0;1;0;0;0];[0;1;0;0;0;0];[1;0;0;0;0;0];[0;0;0;0;0;0]].
(** the entries init writes, src/absolute_pose/modules/gp3p/init.cpp *)
Definition gp_keys : list (nat * nat) := [(0,20);(0,21);(0,32);(0,33);(0,52);(0,53);(0,66);(0,71);(0,75);(0,76);(0,77);(0,79);(0,80);(0,81);(0,82);(0,84);(1,20);(1,21);(1,32);(1,33);(1,52);(1,53);(1,66);(1,70);(1,71);(1,76);(1,77);(1,79);(1,80);(1,81);(1,83);(1,84);(2,20);(2,21);(2,32);(2,33);(2,52);(2,53);(2,66);(2,70);(2,71);(2,75);(2,77);(2,79);(2,80);(2,82);(2,83);(2,84);(3,19);(3,20);(3,31);(3,32);(3,51);(3,52);(3,66);(3,71);(3,75);(3,76);(3,77);(3,78);(3,79);(3,81);(3,82);(3,84);(4,19);(4,20);(4,31);(4,32);(4,51);(4,52);(4,66);(4,70);(4,71);(4,76);(4,77);(4,78);(4,79);(4,81);(4,83);(4,84);(5,19);(5,20);(5,31);(5,32);(5,51);(5,52);(5,66);(5,70);(5,71);(5,75);(5,77);(5,78);(5,79);(5,82);(5,83);(5,84);(6,19);(6,21);(6,31);(6,33);(6,51);(6,53);(6,66);(6,71);(6,75);(6,76);(6,77);(6,78);(6,80);(6,81);(6,82);(6,84);(7,19);(7,21);(7,31);(7,33);(7,51);(7,53);(7,66);(7,70);(7,71);(7,76);(7,77);(7,78);(7,80);(7,81);(7,83);(7,84);(8,19);(8,21);(8,31);(8,33);(8,51);(8,53);(8,66);(8,70);(8,71);(8,75);(8,77);(8,78);(8,80);(8,82);(8,83);(8,84)].
(** sPolynomial9, src/absolute_pose/modules/gp3p/spolynomials.cpp 36 *)
Definition gp_sPolynomial9 := GS 9 0 20 1 20 [(21,Some 21,Some 21);(33,Some 33,Some 33);(53,Some 53,Some 53);(66,Some 66,Some 66);(70,None,Some 70);(71,Some 71,Some 71);(75,Some 75,None);(76,Some 76,Some 76);(77,Some 77,Some 77);(80,Some 80,Some 80);(81,Some 81,Some 81);(82,Some 82,None);(83,None,Some 83);(84,Some 84,Some 84)].
(** sPolynomial10, src/absolute_pose/modules/gp3p/spolynomials.cpp 55 *)
Definition gp_sPolynomial10 := GS 10 1 20 2 20 [(21,Some 21,Some 21);(33,Some 33,Some 33);(53,Some 53,Some 53);(66,Some 66,Some 66);(70,Some 70,Some 70);(71,Some 71,Some 71);(75,None,Some 75);(76,Some 76,None);(77,Some 77,Some 77);(80,Some 80,Some 80);(81,Some 81,None);(82,None,Some 82);(83,Some 83,Some 83);(84,Some 84,Some 84)].
(** sPolynomial11, src/absolute_pose/modules/gp3p/spolynomials.cpp 74 *)
Definition gp_sPolynomial11 := GS 11 3 19 4 19 [(20,Some 20,Some 20);(32,Some 32,Some 32);(52,Some 52,Some 52);(66,Some 66,Some 66);(70,None,Some 70);(71,Some 71,Some 71);(75,Some 75,None);(76,Some 76,Some 76);(77,Some 77,Some 77);(79,Some 79,Some 79);(81,Some 81,Some 81);(82,Some 82,None);(83,None,Some 83);(84,Some 84,Some 84)].
(** sPolynomial12, src/absolute_pose/modules/gp3p/spolynomials.cpp 93 *)
Definition gp_sPolynomial12 := GS 12 4 19 5 19 [(20,Some 20,Some 20);(32,Some 32,Some 32);(52,Some 52,Some 52);(66,Some 66,Some 66);(70,Some 70,Some 70);(71,Some 71,Some 71);(75,None,Some 75);(76,Some 76,None);(77,Some 77,Some 77);(79,Some 79,Some 79);(81,Some 81,None);(82,None,Some 82);(83,Some 83,Some 83);(84,Some 84,Some 84)].
(** sPolynomial13, src/absolute_pose/modules/gp3p/spolynomials.cpp 112 *)
Definition gp_sPolynomial13 := GS 13 5 19 6 19 [(20,Some 20,None);(21,None,Some 21);(32,Some 32,None);(33,None,Some 33);(52,Some 52,None);(53,None,Some 53);(66,Some 66,Some 66);(70,Some 70,None);(71,Some 71,Some 71);(75,Some 75,Some 75);(76,None,Some 76);(77,Some 77,Some 77);(79,Some 79,None);(80,None,Some 80);(81,None,Some 81);(82,Some 82,Some 82);(83,Some 83,None);(84,Some 84,Some 84)].
(** sPolynomial14, src/absolute_pose/modules/gp3p/spolynomials.cpp 135 *)
Definition gp_sPolynomial14 := GS 14 6 19 7 19 [(21,Some 21,Some 21);(33,Some 33,Some 33);(53,Some 53,Some 53);(66,Some 66,Some 66);(70,None,Some 70);(71,Some 71,Some 71);(75,Some 75,None);(76,Some 76,Some 76);(77,Some 77,Some 77);(80,Some 80,Some 80);(81,Some 81,Some 81);(82,Some 82,None);(83,None,Some 83);(84,Some 84,Some 84)].
(** sPolynomial15, src/absolute_pose/modules/gp3p/spolynomials.cpp 154 *)
Definition gp_sPolynomial15 := GS 15 7 19 8 19 [(21,Some 21,Some 21);(33,Some 33,Some 33);(53,Some 53,Some 53);(66,Some 66,Some 66);(70,Some 70,Some 70);(71,Some 71,Some 71);(75,None,Some 75);(76,Some 76,None);(77,Some 77,Some 77);(80,Some 80,Some 80);(81,Some 81,None);(82,None,Some 82);(83,Some 83,Some 83);(84,Some 84,Some 84)].
(** sPolynomial16, src/absolute_pose/modules/gp3p/spolynomials.cpp 173 *)
Definition gp_sPolynomial16 := GS 16 12 70 15 71 [(35,Some 71,None);(45,None,Some 75);(49,Some 75,Some 76);(50,Some 76,None);(54,None,Some 77);(55,Some 77,None);(66,None,Some 81);(70,Some 81,Some 82);(71,Some 82,None);(75,None,Some 83);(76,Some 83,None);(81,None,Some 84);(82,Some 84,None)].
(** sPolynomial17, src/absolute_pose/modules/gp3p/spolynomials.cpp 191 *)
Definition gp_sPolynomial17 := GS 17 14 33 15 71 [(44,Some 44,Some 75);(48,Some 48,Some 76);(53,Some 53,Some 77);(65,Some 65,Some 81);(69,Some 69,Some 82);(71,Some 71,None);(74,Some 74,Some 83);(75,Some 75,None);(76,Some 76,None);(77,Some 77,None);(80,Some 80,Some 84);(81,Some 81,None);(82,Some 82,None);(83,Some 83,None);(84,Some 84,None)].
(** sPolynomial18, src/absolute_pose/modules/gp3p/spolynomials.cpp 211 *)
Definition gp_sPolynomial18 := GS 18 13 32 15 71 [(33,Some 33,None);(43,Some 43,Some 75);(44,Some 44,None);(47,Some 47,Some 76);(48,Some 48,None);(52,Some 52,Some 77);(53,Some 53,None);(64,Some 64,Some 81);(65,Some 65,None);(68,Some 68,Some 82);(69,Some 69,None);(71,Some 71,None);(73,Some 73,Some 83);(74,Some 74,None);(75,Some 75,None);(76,Some 76,None);(77,Some 77,None);(79,Some 79,Some 84);(80,Some 80,None);(81,Some 81,None);(82,Some 82,None);(83,Some 83,None);(84,Some 84,None)].
(** sPolynomial19, src/absolute_pose/modules/gp3p/spolynomials.cpp 239 *)
Definition gp_sPolynomial19 := GS 19 10 66 12 70 [(34,Some 70,Some 71);(35,Some 71,None);(45,None,Some 75);(49,Some 75,Some 76);(50,Some 76,None);(54,None,Some 77);(55,Some 77,None);(66,None,Some 81);(70,Some 81,Some 82);(71,Some 82,None);(75,None,Some 83);(76,Some 83,None);(81,None,Some 84);(82,Some 84,None)].
(** sPolynomial20, src/absolute_pose/modules/gp3p/spolynomials.cpp 258 *)
Definition gp_sPolynomial20 := GS 20 8 19 10 66 [(21,Some 21,None);(28,None,Some 70);(31,Some 31,Some 71);(33,Some 33,None);(42,None,Some 75);(46,None,Some 76);(51,Some 51,Some 77);(53,Some 53,None);(63,None,Some 81);(66,Some 66,None);(67,None,Some 82);(70,Some 70,None);(71,Some 71,None);(72,None,Some 83);(75,Some 75,None);(77,Some 77,None);(78,Some 78,Some 84);(80,Some 80,None);(82,Some 82,None);(83,Some 83,None);(84,Some 84,None)].
(** sPolynomial21, src/absolute_pose/modules/gp3p/spolynomials.cpp 284 *)
Definition gp_sPolynomial21 := GS 21 16 54 17 44 [(11,Some 55,Some 48);(14,Some 56,Some 53);(44,Some 75,Some 65);(48,Some 76,Some 69);(53,Some 77,Some 74);(54,None,Some 75);(55,None,Some 76);(56,None,Some 77);(65,Some 81,None);(69,Some 82,None);(74,Some 83,Some 80);(75,None,Some 81);(76,None,Some 82);(77,None,Some 83);(80,Some 84,None);(83,None,Some 84)].
(** sPolynomial22, src/absolute_pose/modules/gp3p/spolynomials.cpp 305 *)
Definition gp_sPolynomial22 := GS 22 16 54 18 43 [(10,Some 55,Some 47);(13,Some 56,Some 52);(43,Some 75,Some 64);(47,Some 76,Some 68);(52,Some 77,Some 73);(54,None,Some 75);(55,None,Some 76);(56,None,Some 77);(64,Some 81,None);(68,Some 82,None);(73,Some 83,Some 79);(75,None,Some 81);(76,None,Some 82);(77,None,Some 83);(79,Some 84,None);(83,None,Some 84)].
(** sPolynomial23, src/absolute_pose/modules/gp3p/spolynomials.cpp 326 *)
Definition gp_sPolynomial23 := GS 23 16 54 20 42 [(9,Some 55,Some 46);(12,Some 56,Some 51);(42,Some 75,Some 63);(46,Some 76,Some 67);(51,Some 77,Some 72);(54,None,Some 75);(55,None,Some 76);(56,None,Some 77);(63,Some 81,None);(67,Some 82,None);(72,Some 83,Some 78);(75,None,Some 81);(76,None,Some 82);(77,None,Some 83);(78,Some 84,None);(83,None,Some 84)].
(** sPolynomial24, src/absolute_pose/modules/gp3p/spolynomials.cpp 347 *)
Definition gp_sPolynomial24 := GS 24 12 70 17 44 [(5,Some 71,Some 48);(8,Some 75,None);(11,Some 76,Some 53);(14,Some 77,None);(30,None,Some 65);(33,None,Some 69);(44,Some 81,None);(48,Some 82,Some 74);(49,None,Some 75);(50,None,Some 76);(53,Some 83,None);(55,None,Some 77);(69,None,Some 80);(70,None,Some 81);(71,None,Some 82);(74,Some 84,None);(76,None,Some 83);(82,None,Some 84)].
(** sPolynomial25, src/absolute_pose/modules/gp3p/spolynomials.cpp 370 *)
Definition gp_sPolynomial25 := GS 25 12 70 18 43 [(4,Some 71,Some 47);(7,Some 75,None);(10,Some 76,Some 52);(13,Some 77,None);(29,None,Some 64);(32,None,Some 68);(43,Some 81,None);(47,Some 82,Some 73);(49,None,Some 75);(50,None,Some 76);(52,Some 83,None);(55,None,Some 77);(68,None,Some 79);(70,None,Some 81);(71,None,Some 82);(73,Some 84,None);(76,None,Some 83);(82,None,Some 84)].
(** sPolynomial26, src/absolute_pose/modules/gp3p/spolynomials.cpp 393 *)
Definition gp_sPolynomial26 := GS 26 12 70 20 42 [(3,Some 71,Some 46);(6,Some 75,None);(9,Some 76,Some 51);(12,Some 77,None);(28,None,Some 63);(31,None,Some 67);(42,Some 81,None);(46,Some 82,Some 72);(49,None,Some 75);(50,None,Some 76);(51,Some 83,None);(55,None,Some 77);(67,None,Some 78);(70,None,Some 81);(71,None,Some 82);(72,Some 84,None);(76,None,Some 83);(82,None,Some 84)].
(** sPolynomial27, src/absolute_pose/modules/gp3p/spolynomials.cpp 416 *)
Definition gp_sPolynomial27 := GS 27 10 66 17 44 [(2,Some 70,Some 48);(5,Some 71,None);(8,Some 75,Some 53);(11,Some 76,None);(14,Some 77,None);(21,None,Some 65);(30,None,Some 69);(44,Some 81,Some 74);(45,None,Some 75);(48,Some 82,None);(49,None,Some 76);(53,Some 83,None);(54,None,Some 77);(65,None,Some 80);(66,None,Some 81);(70,None,Some 82);(74,Some 84,None);(75,None,Some 83);(81,None,Some 84)].
(** sPolynomial28, src/absolute_pose/modules/gp3p/spolynomials.cpp 440 *)
Definition gp_sPolynomial28 := GS 28 10 66 18 43 [(1,Some 70,Some 47);(4,Some 71,None);(7,Some 75,Some 52);(10,Some 76,None);(13,Some 77,None);(20,None,Some 64);(29,None,Some 68);(43,Some 81,Some 73);(45,None,Some 75);(47,Some 82,None);(49,None,Some 76);(52,Some 83,None);(54,None,Some 77);(64,None,Some 79);(66,None,Some 81);(70,None,Some 82);(73,Some 84,None);(75,None,Some 83);(81,None,Some 84)].
(** sPolynomial29, src/absolute_pose/modules/gp3p/spolynomials.cpp 464 *)
Definition gp_sPolynomial29 := GS 29 10 66 20 42 [(0,Some 70,Some 46);(3,Some 71,None);(6,Some 75,Some 51);(9,Some 76,None);(12,Some 77,None);(19,None,Some 63);(28,None,Some 67);(42,Some 81,Some 72);(45,None,Some 75);(46,Some 82,None);(49,None,Some 76);(51,Some 83,None);(54,None,Some 77);(63,None,Some 78);(66,None,Some 81);(70,None,Some 82);(72,Some 84,None);(75,None,Some 83);(81,None,Some 84)].
(** sPolynomial30, src/absolute_pose/modules/gp3p/spolynomials.cpp 488 *)
Definition gp_sPolynomial30 := GS 30 17 44 18 43 [(43,Some 75,None);(44,None,Some 75);(47,Some 76,None);(48,None,Some 76);(52,Some 77,None);(53,None,Some 77);(64,Some 81,None);(65,None,Some 81);(68,Some 82,None);(69,None,Some 82);(73,Some 83,None);(74,None,Some 83);(79,Some 84,None);(80,None,Some 84)].
(** sPolynomial31, src/absolute_pose/modules/gp3p/spolynomials.cpp 507 *)
Definition gp_sPolynomial31 := GS 31 17 44 20 42 [(42,Some 75,None);(44,None,Some 75);(46,Some 76,None);(48,None,Some 76);(51,Some 77,None);(53,None,Some 77);(63,Some 81,None);(65,None,Some 81);(67,Some 82,None);(69,None,Some 82);(72,Some 83,None);(74,None,Some 83);(78,Some 84,None);(80,None,Some 84)].
(** sPolynomial32, src/absolute_pose/modules/gp3p/spolynomials.cpp 526 *)
Definition gp_sPolynomial32 := GS 32 18 43 20 42 [(42,Some 75,None);(43,None,Some 75);(46,Some 76,None);(47,None,Some 76);(51,Some 77,None);(52,None,Some 77);(63,Some 81,None);(64,None,Some 81);(67,Some 82,None);(68,None,Some 82);(72,Some 83,None);(73,None,Some 83);(78,Some 84,None);(79,None,Some 84)].
(** sPolynomial33, src/absolute_pose/modules/gp3p/spolynomials.cpp 545 *)
Definition gp_sPolynomial33 := GS 33 17 44 32 65 [(46,None,Some 67);(47,None,Some 68);(48,Some 48,Some 69);(51,None,Some 72);(52,None,Some 73);(53,Some 53,Some 74);(54,None,Some 75);(55,None,Some 76);(56,None,Some 77);(65,Some 65,None);(69,Some 69,None);(72,None,Some 78);(73,None,Some 79);(74,Some 74,Some 80);(75,Some 75,Some 81);(76,Some 76,Some 82);(77,Some 77,Some 83);(80,Some 80,None);(81,Some 81,None);(82,Some 82,None);(83,Some 83,Some 84);(84,Some 84,None)].
(** sPolynomial34, src/absolute_pose/modules/gp3p/spolynomials.cpp 572 *)
Definition gp_sPolynomial34 := GS 34 18 43 30 64 [(44,None,Some 65);(47,Some 47,Some 68);(48,None,Some 69);(52,Some 52,Some 73);(53,None,Some 74);(54,None,Some 75);(55,None,Some 76);(56,None,Some 77);(64,Some 64,None);(68,Some 68,None);(73,Some 73,Some 79);(74,None,Some 80);(75,Some 75,Some 81);(76,Some 76,Some 82);(77,Some 77,Some 83);(79,Some 79,None);(81,Some 81,None);(82,Some 82,None);(83,Some 83,Some 84);(84,Some 84,None)].
(** sPolynomial35, src/absolute_pose/modules/gp3p/spolynomials.cpp 597 *)
Definition gp_sPolynomial35 := GS 35 20 42 31 63 [(44,None,Some 65);(46,Some 46,Some 67);(48,None,Some 69);(51,Some 51,Some 72);(53,None,Some 74);(54,None,Some 75);(55,None,Some 76);(56,None,Some 77);(63,Some 63,None);(67,Some 67,None);(72,Some 72,Some 78);(74,None,Some 80);(75,Some 75,Some 81);(76,Some 76,Some 82);(77,Some 77,Some 83);(78,Some 78,None);(81,Some 81,None);(82,Some 82,None);(83,Some 83,Some 84);(84,Some 84,None)].
(** sPolynomial36, src/absolute_pose/modules/gp3p/spolynomials.cpp 622 *)
Definition gp_sPolynomial36 := GS 36 12 70 32 65 [(31,None,Some 67);(32,None,Some 68);(33,Some 71,Some 69);(44,Some 75,None);(46,None,Some 72);(47,None,Some 73);(48,Some 76,Some 74);(49,None,Some 75);(50,None,Some 76);(53,Some 77,None);(55,None,Some 77);(65,Some 81,None);(67,None,Some 78);(68,None,Some 79);(69,Some 82,Some 80);(70,None,Some 81);(71,None,Some 82);(74,Some 83,None);(76,None,Some 83);(80,Some 84,None);(82,None,Some 84)].
(** sPolynomial37, src/absolute_pose/modules/gp3p/spolynomials.cpp 648 *)
Definition gp_sPolynomial37 := GS 37 12 70 30 64 [(30,None,Some 65);(32,Some 71,Some 68);(33,None,Some 69);(43,Some 75,None);(47,Some 76,Some 73);(48,None,Some 74);(49,None,Some 75);(50,None,Some 76);(52,Some 77,None);(55,None,Some 77);(64,Some 81,None);(68,Some 82,Some 79);(69,None,Some 80);(70,None,Some 81);(71,None,Some 82);(73,Some 83,None);(76,None,Some 83);(79,Some 84,None);(82,None,Some 84)].
(** sPolynomial38, src/absolute_pose/modules/gp3p/spolynomials.cpp 672 *)
Definition gp_sPolynomial38 := GS 38 12 70 31 63 [(30,None,Some 65);(31,Some 71,Some 67);(33,None,Some 69);(42,Some 75,None);(46,Some 76,Some 72);(48,None,Some 74);(49,None,Some 75);(50,None,Some 76);(51,Some 77,None);(55,None,Some 77);(63,Some 81,None);(67,Some 82,Some 78);(69,None,Some 80);(70,None,Some 81);(71,None,Some 82);(72,Some 83,None);(76,None,Some 83);(78,Some 84,None);(82,None,Some 84)].
(** sPolynomial39, src/absolute_pose/modules/gp3p/spolynomials.cpp 696 *)
Definition gp_sPolynomial39 := GS 39 10 66 32 65 [(28,None,Some 67);(29,None,Some 68);(30,Some 70,Some 69);(33,Some 71,None);(42,None,Some 72);(43,None,Some 73);(44,Some 75,Some 74);(45,None,Some 75);(48,Some 76,None);(49,None,Some 76);(53,Some 77,None);(54,None,Some 77);(63,None,Some 78);(64,None,Some 79);(65,Some 81,Some 80);(66,None,Some 81);(69,Some 82,None);(70,None,Some 82);(74,Some 83,None);(75,None,Some 83);(80,Some 84,None);(81,None,Some 84)].
(** sPolynomial40, src/absolute_pose/modules/gp3p/spolynomials.cpp 723 *)
Definition gp_sPolynomial40 := GS 40 10 66 30 64 [(21,None,Some 65);(29,Some 70,Some 68);(30,None,Some 69);(32,Some 71,None);(43,Some 75,Some 73);(44,None,Some 74);(45,None,Some 75);(47,Some 76,None);(49,None,Some 76);(52,Some 77,None);(54,None,Some 77);(64,Some 81,Some 79);(65,None,Some 80);(66,None,Some 81);(68,Some 82,None);(70,None,Some 82);(73,Some 83,None);(75,None,Some 83);(79,Some 84,None);(81,None,Some 84)].
(** sPolynomial41, src/absolute_pose/modules/gp3p/spolynomials.cpp 748 *)
Definition gp_sPolynomial41 := GS 41 10 66 31 63 [(21,None,Some 65);(28,Some 70,Some 67);(30,None,Some 69);(31,Some 71,None);(42,Some 75,Some 72);(44,None,Some 74);(45,None,Some 75);(46,Some 76,None);(49,None,Some 76);(51,Some 77,None);(54,None,Some 77);(63,Some 81,Some 78);(65,None,Some 80);(66,None,Some 81);(67,Some 82,None);(70,None,Some 82);(72,Some 83,None);(75,None,Some 83);(78,Some 84,None);(81,None,Some 84)].
(** sPolynomial42, src/absolute_pose/modules/gp3p/spolynomials.cpp 773 *)
Definition gp_sPolynomial42 := GS 42 30 64 32 65 [(18,Some 65,None);(23,None,Some 67);(24,None,Some 68);(26,Some 68,Some 69);(27,Some 69,None);(37,None,Some 72);(38,None,Some 73);(40,Some 73,Some 74);(41,Some 74,None);(43,None,Some 75);(44,Some 75,None);(47,None,Some 76);(48,Some 76,None);(52,None,Some 77);(53,Some 77,None);(58,None,Some 78);(59,None,Some 79);(61,Some 79,Some 80);(62,Some 80,None);(64,None,Some 81);(65,Some 81,None);(68,None,Some 82);(69,Some 82,None);(73,None,Some 83);(74,Some 83,None);(79,None,Some 84);(80,Some 84,None)].
(** sPolynomial43, src/absolute_pose/modules/gp3p/spolynomials.cpp 805 *)
Definition gp_sPolynomial43 := GS 43 31 63 32 65 [(18,Some 65,None);(22,None,Some 67);(23,None,Some 68);(25,Some 67,Some 69);(27,Some 69,None);(36,None,Some 72);(37,None,Some 73);(39,Some 72,Some 74);(41,Some 74,None);(42,None,Some 75);(44,Some 75,None);(46,None,Some 76);(48,Some 76,None);(51,None,Some 77);(53,Some 77,None);(57,None,Some 78);(58,None,Some 79);(60,Some 78,Some 80);(62,Some 80,None);(63,None,Some 81);(65,Some 81,None);(67,None,Some 82);(69,Some 82,None);(72,None,Some 83);(74,Some 83,None);(78,None,Some 84);(80,Some 84,None)].
(** sPolynomial44, src/absolute_pose/modules/gp3p/spolynomials.cpp 837 *)
Definition gp_sPolynomial44 := GS 44 30 64 31 63 [(16,Some 65,None);(17,None,Some 65);(25,Some 69,None);(26,None,Some 69);(39,Some 74,None);(40,None,Some 74);(42,Some 75,None);(43,None,Some 75);(46,Some 76,None);(47,None,Some 76);(51,Some 77,None);(52,None,Some 77);(60,Some 80,None);(61,None,Some 80);(63,Some 81,None);(64,None,Some 81);(67,Some 82,None);(68,None,Some 82);(72,Some 83,None);(73,None,Some 83);(78,Some 84,None);(79,None,Some 84)].
(** sPolynomial45, src/absolute_pose/modules/gp3p/spolynomials.cpp 864 *)
Definition gp_sPolynomial45 := GS 45 19 55 27 53 [(14,Some 56,None);(15,None,Some 56);(30,None,Some 65);(33,None,Some 69);(44,Some 75,None);(48,Some 76,Some 74);(49,None,Some 75);(50,None,Some 76);(53,Some 77,None);(55,None,Some 77);(65,Some 81,None);(69,Some 82,Some 80);(70,None,Some 81);(71,None,Some 82);(74,Some 83,None);(76,None,Some 83);(80,Some 84,None);(82,None,Some 84)].
(** sPolynomial46, src/absolute_pose/modules/gp3p/spolynomials.cpp 887 *)
Definition gp_sPolynomial46 := GS 46 19 55 28 52 [(13,Some 56,None);(15,None,Some 56);(29,None,Some 64);(32,None,Some 68);(43,Some 75,None);(47,Some 76,Some 73);(49,None,Some 75);(50,None,Some 76);(52,Some 77,None);(55,None,Some 77);(64,Some 81,None);(68,Some 82,Some 79);(70,None,Some 81);(71,None,Some 82);(73,Some 83,None);(76,None,Some 83);(79,Some 84,None);(82,None,Some 84)].
(** sPolynomial47, src/absolute_pose/modules/gp3p/spolynomials.cpp 910 *)
Definition gp_sPolynomial47 := GS 47 19 55 29 51 [(12,Some 56,None);(15,None,Some 56);(28,None,Some 63);(31,None,Some 67);(42,Some 75,None);(46,Some 76,Some 72);(49,None,Some 75);(50,None,Some 76);(51,Some 77,None);(55,None,Some 77);(63,Some 81,None);(67,Some 82,Some 78);(70,None,Some 81);(71,None,Some 82);(72,Some 83,None);(76,None,Some 83);(78,Some 84,None);(82,None,Some 84)].
(** groebnerRow9_000000_f, src/absolute_pose/modules/gp3p/reductors.cpp 36 *)
Definition gp_groebnerRow9_000000_f t := GR t 9 21 21 [(33,33);(53,53);(66,66);(70,70);(71,71);(75,75);(76,76);(77,77);(80,80);(81,81);(82,82);(83,83);(84,84)].
(** groebnerRow10_000010_f, src/absolute_pose/modules/gp3p/reductors.cpp 56 *)
Definition gp_groebnerRow10_000010_f t := GR t 10 20 66 [(29,70);(32,71);(43,75);(47,76);(52,77);(64,81);(68,82);(73,83);(79,84)].
(** groebnerRow10_000000_f, src/absolute_pose/modules/gp3p/reductors.cpp 72 *)
Definition gp_groebnerRow10_000000_f t := GR t 10 66 66 [(70,70);(71,71);(75,75);(76,76);(77,77);(81,81);(82,82);(83,83);(84,84)].
(** groebnerRow11_000000_f, src/absolute_pose/modules/gp3p/reductors.cpp 88 *)
Definition gp_groebnerRow11_000000_f t := GR t 11 29 29 [(32,32);(43,43);(47,47);(52,52);(64,64);(68,68);(70,70);(71,71);(73,73);(75,75);(76,76);(77,77);(79,79);(81,81);(82,82);(83,83);(84,84)].
(** groebnerRow10_000100_f, src/absolute_pose/modules/gp3p/reductors.cpp 112 *)
Definition gp_groebnerRow10_000100_f t := GR t 10 21 66 [(30,70);(33,71);(44,75);(48,76);(53,77);(65,81);(69,82);(74,83);(80,84)].
(** groebnerRow12_000010_f, src/absolute_pose/modules/gp3p/reductors.cpp 128 *)
Definition gp_groebnerRow12_000010_f t := GR t 12 29 70 [(32,71);(43,75);(47,76);(52,77);(64,81);(68,82);(73,83);(79,84)].
(** groebnerRow12_000100_f, src/absolute_pose/modules/gp3p/reductors.cpp 143 *)
Definition gp_groebnerRow12_000100_f t := GR t 12 30 70 [(33,71);(44,75);(48,76);(53,77);(65,81);(69,82);(74,83);(80,84)].
(** groebnerRow12_000000_f, src/absolute_pose/modules/gp3p/reductors.cpp 158 *)
Definition gp_groebnerRow12_000000_f t := GR t 12 70 70 [(71,71);(75,75);(76,76);(77,77);(81,81);(82,82);(83,83);(84,84)].
(** groebnerRow14_000000_f, src/absolute_pose/modules/gp3p/reductors.cpp 173 *)
Definition gp_groebnerRow14_000000_f t := GR t 14 33 33 [(44,44);(48,48);(53,53);(65,65);(69,69);(71,71);(74,74);(75,75);(76,76);(77,77);(80,80);(81,81);(82,82);(83,83);(84,84)].
(** groebnerRow15_010000_f, src/absolute_pose/modules/gp3p/reductors.cpp 195 *)
Definition gp_groebnerRow15_010000_f t := GR t 15 35 71 [(49,75);(50,76);(55,77);(70,81);(71,82);(76,83);(82,84)].
(** groebnerRow10_100000_f, src/absolute_pose/modules/gp3p/reductors.cpp 209 *)
Definition gp_groebnerRow10_100000_f t := GR t 10 45 66 [(49,70);(50,71);(54,75);(55,76);(56,77);(75,81);(76,82);(77,83);(83,84)].
(** groebnerRow12_100000_f, src/absolute_pose/modules/gp3p/reductors.cpp 225 *)
Definition gp_groebnerRow12_100000_f t := GR t 12 49 70 [(50,71);(54,75);(55,76);(56,77);(75,81);(76,82);(77,83);(83,84)].
(** groebnerRow15_100000_f, src/absolute_pose/modules/gp3p/reductors.cpp 240 *)
Definition gp_groebnerRow15_100000_f t := GR t 15 50 71 [(54,75);(55,76);(56,77);(75,81);(76,82);(77,83);(83,84)].
(** groebnerRow15_000000_f, src/absolute_pose/modules/gp3p/reductors.cpp 254 *)
Definition gp_groebnerRow15_000000_f t := GR t 15 71 71 [(75,75);(76,76);(77,77);(81,81);(82,82);(83,83);(84,84)].
(** groebnerRow15_000100_f, src/absolute_pose/modules/gp3p/reductors.cpp 268 *)
Definition gp_groebnerRow15_000100_f t := GR t 15 33 71 [(44,75);(48,76);(53,77);(65,81);(69,82);(74,83);(80,84)].
(** groebnerRow17_000000_f, src/absolute_pose/modules/gp3p/reductors.cpp 282 *)
Definition gp_groebnerRow17_000000_f t := GR t 17 44 44 [(48,48);(53,53);(65,65);(69,69);(74,74);(75,75);(76,76);(77,77);(80,80);(81,81);(82,82);(83,83);(84,84)].
(** groebnerRow12_010000_f, src/absolute_pose/modules/gp3p/reductors.cpp 302 *)
Definition gp_groebnerRow12_010000_f t := GR t 12 34 70 [(35,71);(49,75);(50,76);(55,77);(70,81);(71,82);(76,83);(82,84)].
(** groebnerRow16_000000_f, src/absolute_pose/modules/gp3p/reductors.cpp 317 *)
Definition gp_groebnerRow16_000000_f t := GR t 16 54 54 [(55,55);(56,56);(75,75);(76,76);(77,77);(81,81);(82,82);(83,83);(84,84)].
(** groebnerRow12_000001_f, src/absolute_pose/modules/gp3p/reductors.cpp 333 *)
Definition gp_groebnerRow12_000001_f t := GR t 12 28 70 [(31,71);(42,75);(46,76);(51,77);(63,81);(67,82);(72,83);(78,84)].
(** groebnerRow15_000001_f, src/absolute_pose/modules/gp3p/reductors.cpp 348 *)
Definition gp_groebnerRow15_000001_f t := GR t 15 31 71 [(42,75);(46,76);(51,77);(63,81);(67,82);(72,83);(78,84)].
(** groebnerRow19_000100_f, src/absolute_pose/modules/gp3p/reductors.cpp 362 *)
Definition gp_groebnerRow19_000100_f t := GR t 19 11 55 [(14,56);(44,75);(48,76);(53,77);(65,81);(69,82);(74,83);(80,84)].
(** groebnerRow19_000000_f, src/absolute_pose/modules/gp3p/reductors.cpp 377 *)
Definition gp_groebnerRow19_000000_f t := GR t 19 55 55 [(56,56);(75,75);(76,76);(77,77);(81,81);(82,82);(83,83);(84,84)].
(** groebnerRow19_000010_f, src/absolute_pose/modules/gp3p/reductors.cpp 392 *)
Definition gp_groebnerRow19_000010_f t := GR t 19 10 55 [(13,56);(43,75);(47,76);(52,77);(64,81);(68,82);(73,83);(79,84)].
(** groebnerRow18_000000_f, src/absolute_pose/modules/gp3p/reductors.cpp 407 *)
Definition gp_groebnerRow18_000000_f t := GR t 18 43 43 [(47,47);(52,52);(64,64);(68,68);(73,73);(75,75);(76,76);(77,77);(79,79);(81,81);(82,82);(83,83);(84,84)].
(** groebnerRow19_000001_f, src/absolute_pose/modules/gp3p/reductors.cpp 427 *)
Definition gp_groebnerRow19_000001_f t := GR t 19 9 55 [(12,56);(42,75);(46,76);(51,77);(63,81);(67,82);(72,83);(78,84)].
(** groebnerRow20_000000_f, src/absolute_pose/modules/gp3p/reductors.cpp 442 *)
Definition gp_groebnerRow20_000000_f t := GR t 20 42 42 [(46,46);(51,51);(63,63);(67,67);(72,72);(75,75);(76,76);(77,77);(78,78);(81,81);(82,82);(83,83);(84,84)].
(** groebnerRow15_100100_f, src/absolute_pose/modules/gp3p/reductors.cpp 462 *)
Definition gp_groebnerRow15_100100_f t := GR t 15 5 71 [(8,75);(11,76);(14,77);(44,81);(48,82);(53,83);(74,84)].
(** groebnerRow16_000100_f, src/absolute_pose/modules/gp3p/reductors.cpp 476 *)
Definition gp_groebnerRow16_000100_f t := GR t 16 8 54 [(11,55);(14,56);(44,75);(48,76);(53,77);(65,81);(69,82);(74,83);(80,84)].
(** groebnerRow21_000000_f, src/absolute_pose/modules/gp3p/reductors.cpp 492 *)
Definition gp_groebnerRow21_000000_f t := GR t 21 14 14 [(48,48);(53,53);(56,56);(65,65);(69,69);(74,74);(75,75);(76,76);(77,77);(80,80);(81,81);(82,82);(83,83);(84,84)].
(** groebnerRow15_100010_f, src/absolute_pose/modules/gp3p/reductors.cpp 513 *)
Definition gp_groebnerRow15_100010_f t := GR t 15 4 71 [(7,75);(10,76);(13,77);(43,81);(47,82);(52,83);(73,84)].
(** groebnerRow16_000010_f, src/absolute_pose/modules/gp3p/reductors.cpp 527 *)
Definition gp_groebnerRow16_000010_f t := GR t 16 7 54 [(10,55);(13,56);(43,75);(47,76);(52,77);(64,81);(68,82);(73,83);(79,84)].
(** groebnerRow22_000000_f, src/absolute_pose/modules/gp3p/reductors.cpp 543 *)
Definition gp_groebnerRow22_000000_f t := GR t 22 13 13 [(47,47);(52,52);(56,56);(64,64);(68,68);(73,73);(75,75);(76,76);(77,77);(79,79);(81,81);(82,82);(83,83);(84,84)].
(** groebnerRow15_000010_f, src/absolute_pose/modules/gp3p/reductors.cpp 564 *)
Definition gp_groebnerRow15_000010_f t := GR t 15 32 71 [(43,75);(47,76);(52,77);(64,81);(68,82);(73,83);(79,84)].
(** groebnerRow15_100001_f, src/absolute_pose/modules/gp3p/reductors.cpp 578 *)
Definition gp_groebnerRow15_100001_f t := GR t 15 3 71 [(6,75);(9,76);(12,77);(42,81);(46,82);(51,83);(72,84)].
(** groebnerRow16_000001_f, src/absolute_pose/modules/gp3p/reductors.cpp 592 *)
Definition gp_groebnerRow16_000001_f t := GR t 16 6 54 [(9,55);(12,56);(42,75);(46,76);(51,77);(63,81);(67,82);(72,83);(78,84)].
(** groebnerRow23_000000_f, src/absolute_pose/modules/gp3p/reductors.cpp 608 *)
Definition gp_groebnerRow23_000000_f t := GR t 23 12 12 [(46,46);(51,51);(56,56);(63,63);(67,67);(72,72);(75,75);(76,76);(77,77);(78,78);(81,81);(82,82);(83,83);(84,84)].
(** groebnerRow12_100100_f, src/absolute_pose/modules/gp3p/reductors.cpp 629 *)
Definition gp_groebnerRow12_100100_f t := GR t 12 2 70 [(5,71);(8,75);(11,76);(14,77);(44,81);(48,82);(53,83);(74,84)].
(** groebnerRow24_000000_f, src/absolute_pose/modules/gp3p/reductors.cpp 644 *)
Definition gp_groebnerRow24_000000_f t := GR t 24 48 48 [(53,53);(56,56);(65,65);(69,69);(74,74);(75,75);(76,76);(77,77);(80,80);(81,81);(82,82);(83,83);(84,84)].
(** groebnerRow12_100010_f, src/absolute_pose/modules/gp3p/reductors.cpp 664 *)
Definition gp_groebnerRow12_100010_f t := GR t 12 1 70 [(4,71);(7,75);(10,76);(13,77);(43,81);(47,82);(52,83);(73,84)].
(** groebnerRow25_000000_f, src/absolute_pose/modules/gp3p/reductors.cpp 679 *)
Definition gp_groebnerRow25_000000_f t := GR t 25 47 47 [(52,52);(56,56);(64,64);(68,68);(73,73);(75,75);(76,76);(77,77);(79,79);(81,81);(82,82);(83,83);(84,84)].
(** groebnerRow12_100001_f, src/absolute_pose/modules/gp3p/reductors.cpp 699 *)
Definition gp_groebnerRow12_100001_f t := GR t 12 0 70 [(3,71);(6,75);(9,76);(12,77);(42,81);(46,82);(51,83);(72,84)].
(** groebnerRow10_000001_f, src/absolute_pose/modules/gp3p/reductors.cpp 714 *)
Definition gp_groebnerRow10_000001_f t := GR t 10 19 66 [(28,70);(31,71);(42,75);(46,76);(51,77);(63,81);(67,82);(72,83);(78,84)].
(** groebnerRow26_000000_f, src/absolute_pose/modules/gp3p/reductors.cpp 730 *)
Definition gp_groebnerRow26_000000_f t := GR t 26 46 46 [(51,51);(56,56);(63,63);(67,67);(72,72);(75,75);(76,76);(77,77);(78,78);(81,81);(82,82);(83,83);(84,84)].
(** groebnerRow28_000000_f, src/absolute_pose/modules/gp3p/reductors.cpp 750 *)
Definition gp_groebnerRow28_000000_f t := GR t 28 52 52 [(56,56);(64,64);(68,68);(73,73);(75,75);(76,76);(77,77);(79,79);(81,81);(82,82);(83,83);(84,84)].
(** groebnerRow27_000000_f, src/absolute_pose/modules/gp3p/reductors.cpp 769 *)
Definition gp_groebnerRow27_000000_f t := GR t 27 53 53 [(56,56);(65,65);(69,69);(74,74);(75,75);(76,76);(77,77);(80,80);(81,81);(82,82);(83,83);(84,84)].
(** groebnerRow29_000000_f, src/absolute_pose/modules/gp3p/reductors.cpp 788 *)
Definition gp_groebnerRow29_000000_f t := GR t 29 51 51 [(56,56);(63,63);(67,67);(72,72);(75,75);(76,76);(77,77);(78,78);(81,81);(82,82);(83,83);(84,84)].
(** groebnerRow31_100000_f, src/absolute_pose/modules/gp3p/reductors.cpp 807 *)
Definition gp_groebnerRow31_100000_f t := GR t 31 42 63 [(44,65);(46,67);(48,69);(51,72);(53,74);(54,75);(55,76);(56,77);(72,78);(74,80);(75,81);(76,82);(77,83);(83,84)].
(** groebnerRow30_100000_f, src/absolute_pose/modules/gp3p/reductors.cpp 828 *)
Definition gp_groebnerRow30_100000_f t := GR t 30 43 64 [(44,65);(47,68);(48,69);(52,73);(53,74);(54,75);(55,76);(56,77);(73,79);(74,80);(75,81);(76,82);(77,83);(83,84)].
(** groebnerRow31_000000_f, src/absolute_pose/modules/gp3p/reductors.cpp 849 *)
Definition gp_groebnerRow31_000000_f t := GR t 31 63 63 [(65,65);(67,67);(69,69);(72,72);(74,74);(75,75);(76,76);(77,77);(78,78);(80,80);(81,81);(82,82);(83,83);(84,84)].
(** groebnerRow30_000000_f, src/absolute_pose/modules/gp3p/reductors.cpp 870 *)
Definition gp_groebnerRow30_000000_f t := GR t 30 64 64 [(65,65);(68,68);(69,69);(73,73);(74,74);(75,75);(76,76);(77,77);(79,79);(80,80);(81,81);(82,82);(83,83);(84,84)].
(** groebnerRow32_000000_f, src/absolute_pose/modules/gp3p/reductors.cpp 891 *)
Definition gp_groebnerRow32_000000_f t := GR t 32 65 65 [(67,67);(68,68);(69,69);(72,72);(73,73);(74,74);(75,75);(76,76);(77,77);(78,78);(79,79);(80,80);(81,81);(82,82);(83,83);(84,84)].
(** groebnerRow32_100000_f, src/absolute_pose/modules/gp3p/reductors.cpp 914 *)
Definition gp_groebnerRow32_100000_f t := GR t 32 44 65 [(46,67);(47,68);(48,69);(51,72);(52,73);(53,74);(54,75);(55,76);(56,77);(72,78);(73,79);(74,80);(75,81);(76,82);(77,83);(83,84)].
(** groebnerRow33_100000_f, src/absolute_pose/modules/gp3p/reductors.cpp 937 *)
Definition gp_groebnerRow33_100000_f t := GR t 33 46 67 [(47,68);(48,69);(51,72);(52,73);(53,74);(54,75);(55,76);(56,77);(72,78);(73,79);(74,80);(75,81);(76,82);(77,83);(83,84)].
(** groebnerRow33_000000_f, src/absolute_pose/modules/gp3p/reductors.cpp 959 *)
Definition gp_groebnerRow33_000000_f t := GR t 33 67 67 [(68,68);(69,69);(72,72);(73,73);(74,74);(75,75);(76,76);(77,77);(78,78);(79,79);(80,80);(81,81);(82,82);(83,83);(84,84)].
(** groebnerRow34_100000_f, src/absolute_pose/modules/gp3p/reductors.cpp 981 *)
Definition gp_groebnerRow34_100000_f t := GR t 34 47 68 [(48,69);(51,72);(52,73);(53,74);(54,75);(55,76);(56,77);(72,78);(73,79);(74,80);(75,81);(76,82);(77,83);(83,84)].
(** groebnerRow34_000000_f, src/absolute_pose/modules/gp3p/reductors.cpp 1002 *)
Definition gp_groebnerRow34_000000_f t := GR t 34 68 68 [(69,69);(72,72);(73,73);(74,74);(75,75);(76,76);(77,77);(78,78);(79,79);(80,80);(81,81);(82,82);(83,83);(84,84)].
(** groebnerRow35_100000_f, src/absolute_pose/modules/gp3p/reductors.cpp 1023 *)
Definition gp_groebnerRow35_100000_f t := GR t 35 48 69 [(51,72);(52,73);(53,74);(54,75);(55,76);(56,77);(72,78);(73,79);(74,80);(75,81);(76,82);(77,83);(83,84)].
(** groebnerRow35_000000_f, src/absolute_pose/modules/gp3p/reductors.cpp 1043 *)
Definition gp_groebnerRow35_000000_f t := GR t 35 69 69 [(72,72);(73,73);(74,74);(75,75);(76,76);(77,77);(78,78);(79,79);(80,80);(81,81);(82,82);(83,83);(84,84)].
(** groebnerRow37_100000_f, src/absolute_pose/modules/gp3p/reductors.cpp 1063 *)
Definition gp_groebnerRow37_100000_f t := GR t 37 51 72 [(52,73);(53,74);(54,75);(55,76);(56,77);(72,78);(73,79);(74,80);(75,81);(76,82);(77,83);(83,84)].
(** groebnerRow36_000000_f, src/absolute_pose/modules/gp3p/reductors.cpp 1082 *)
Definition gp_groebnerRow36_000000_f t := GR t 36 56 56 [(72,72);(73,73);(74,74);(75,75);(76,76);(77,77);(78,78);(79,79);(80,80);(81,81);(82,82);(83,83);(84,84)].
(** groebnerRow37_000000_f, src/absolute_pose/modules/gp3p/reductors.cpp 1102 *)
Definition gp_groebnerRow37_000000_f t := GR t 37 72 72 [(73,73);(74,74);(75,75);(76,76);(77,77);(78,78);(79,79);(80,80);(81,81);(82,82);(83,83);(84,84)].
(** groebnerRow38_100000_f, src/absolute_pose/modules/gp3p/reductors.cpp 1121 *)
Definition gp_groebnerRow38_100000_f t := GR t 38 52 73 [(53,74);(54,75);(55,76);(56,77);(72,78);(73,79);(74,80);(75,81);(76,82);(77,83);(83,84)].
(** groebnerRow38_000000_f, src/absolute_pose/modules/gp3p/reductors.cpp 1139 *)
Definition gp_groebnerRow38_000000_f t := GR t 38 73 73 [(74,74);(75,75);(76,76);(77,77);(78,78);(79,79);(80,80);(81,81);(82,82);(83,83);(84,84)].
(** groebnerRow39_100000_f, src/absolute_pose/modules/gp3p/reductors.cpp 1157 *)
Definition gp_groebnerRow39_100000_f t := GR t 39 53 74 [(54,75);(55,76);(56,77);(72,78);(73,79);(74,80);(75,81);(76,82);(77,83);(83,84)].
(** groebnerRow39_000000_f, src/absolute_pose/modules/gp3p/reductors.cpp 1174 *)
Definition gp_groebnerRow39_000000_f t := GR t 39 74 74 [(75,75);(76,76);(77,77);(78,78);(79,79);(80,80);(81,81);(82,82);(83,83);(84,84)].
(** groebnerRow40_100000_f, src/absolute_pose/modules/gp3p/reductors.cpp 1191 *)
Definition gp_groebnerRow40_100000_f t := GR t 40 54 75 [(55,76);(56,77);(72,78);(73,79);(74,80);(75,81);(76,82);(77,83);(83,84)].
(** groebnerRow40_000000_f, src/absolute_pose/modules/gp3p/reductors.cpp 1207 *)
Definition gp_groebnerRow40_000000_f t := GR t 40 75 75 [(76,76);(77,77);(78,78);(79,79);(80,80);(81,81);(82,82);(83,83);(84,84)].
(** groebnerRow32_000100_f, src/absolute_pose/modules/gp3p/reductors.cpp 1223 *)
Definition gp_groebnerRow32_000100_f t := GR t 32 18 65 [(25,67);(26,68);(27,69);(39,72);(40,73);(41,74);(44,75);(48,76);(53,77);(60,78);(61,79);(62,80);(65,81);(69,82);(74,83);(80,84)].
(** groebnerRow33_000010_f, src/absolute_pose/modules/gp3p/reductors.cpp 1246 *)
Definition gp_groebnerRow33_000010_f t := GR t 33 23 67 [(24,68);(26,69);(37,72);(38,73);(40,74);(43,75);(47,76);(52,77);(58,78);(59,79);(61,80);(64,81);(68,82);(73,83);(79,84)].
(** groebnerRow34_000010_f, src/absolute_pose/modules/gp3p/reductors.cpp 1268 *)
Definition gp_groebnerRow34_000010_f t := GR t 34 24 68 [(26,69);(37,72);(38,73);(40,74);(43,75);(47,76);(52,77);(58,78);(59,79);(61,80);(64,81);(68,82);(73,83);(79,84)].
(** groebnerRow33_000100_f, src/absolute_pose/modules/gp3p/reductors.cpp 1289 *)
Definition gp_groebnerRow33_000100_f t := GR t 33 25 67 [(26,68);(27,69);(39,72);(40,73);(41,74);(44,75);(48,76);(53,77);(60,78);(61,79);(62,80);(65,81);(69,82);(74,83);(80,84)].
(** groebnerRow34_000100_f, src/absolute_pose/modules/gp3p/reductors.cpp 1311 *)
Definition gp_groebnerRow34_000100_f t := GR t 34 26 68 [(27,69);(39,72);(40,73);(41,74);(44,75);(48,76);(53,77);(60,78);(61,79);(62,80);(65,81);(69,82);(74,83);(80,84)].
(** groebnerRow35_000100_f, src/absolute_pose/modules/gp3p/reductors.cpp 1332 *)
Definition gp_groebnerRow35_000100_f t := GR t 35 27 69 [(39,72);(40,73);(41,74);(44,75);(48,76);(53,77);(60,78);(61,79);(62,80);(65,81);(69,82);(74,83);(80,84)].
(** groebnerRow37_000010_f, src/absolute_pose/modules/gp3p/reductors.cpp 1352 *)
Definition gp_groebnerRow37_000010_f t := GR t 37 37 72 [(38,73);(40,74);(43,75);(47,76);(52,77);(58,78);(59,79);(61,80);(64,81);(68,82);(73,83);(79,84)].
(** groebnerRow38_000010_f, src/absolute_pose/modules/gp3p/reductors.cpp 1371 *)
Definition gp_groebnerRow38_000010_f t := GR t 38 38 73 [(40,74);(43,75);(47,76);(52,77);(58,78);(59,79);(61,80);(64,81);(68,82);(73,83);(79,84)].
(** groebnerRow37_000100_f, src/absolute_pose/modules/gp3p/reductors.cpp 1389 *)
Definition gp_groebnerRow37_000100_f t := GR t 37 39 72 [(40,73);(41,74);(44,75);(48,76);(53,77);(60,78);(61,79);(62,80);(65,81);(69,82);(74,83);(80,84)].
(** groebnerRow38_000100_f, src/absolute_pose/modules/gp3p/reductors.cpp 1408 *)
Definition gp_groebnerRow38_000100_f t := GR t 38 40 73 [(41,74);(44,75);(48,76);(53,77);(60,78);(61,79);(62,80);(65,81);(69,82);(74,83);(80,84)].
(** groebnerRow39_000100_f, src/absolute_pose/modules/gp3p/reductors.cpp 1426 *)
Definition gp_groebnerRow39_000100_f t := GR t 39 41 74 [(44,75);(48,76);(53,77);(60,78);(61,79);(62,80);(65,81);(69,82);(74,83);(80,84)].
(** groebnerRow41_100000_f, src/absolute_pose/modules/gp3p/reductors.cpp 1443 *)
Definition gp_groebnerRow41_100000_f t := GR t 41 55 76 [(56,77);(72,78);(73,79);(74,80);(75,81);(76,82);(77,83);(83,84)].
(** groebnerRow41_000000_f, src/absolute_pose/modules/gp3p/reductors.cpp 1458 *)
Definition gp_groebnerRow41_000000_f t := GR t 41 76 76 [(77,77);(78,78);(79,79);(80,80);(81,81);(82,82);(83,83);(84,84)].
(** groebnerRow33_000001_f, src/absolute_pose/modules/gp3p/reductors.cpp 1473 *)
Definition gp_groebnerRow33_000001_f t := GR t 33 22 67 [(23,68);(25,69);(36,72);(37,73);(39,74);(42,75);(46,76);(51,77);(57,78);(58,79);(60,80);(63,81);(67,82);(72,83);(78,84)].
(** groebnerRow37_000001_f, src/absolute_pose/modules/gp3p/reductors.cpp 1495 *)
Definition gp_groebnerRow37_000001_f t := GR t 37 36 72 [(37,73);(39,74);(42,75);(46,76);(51,77);(57,78);(58,79);(60,80);(63,81);(67,82);(72,83);(78,84)].
(** groebnerRow42_000000_f, src/absolute_pose/modules/gp3p/reductors.cpp 1514 *)
Definition gp_groebnerRow42_000000_f t := GR t 42 58 58 [(59,59);(60,60);(61,61);(62,62);(77,77);(78,78);(79,79);(80,80);(81,81);(82,82);(83,83);(84,84)].
(** groebnerRow31_000100_f, src/absolute_pose/modules/gp3p/reductors.cpp 1533 *)
Definition gp_groebnerRow31_000100_f t := GR t 31 16 63 [(18,65);(25,67);(27,69);(39,72);(41,74);(44,75);(48,76);(53,77);(60,78);(62,80);(65,81);(69,82);(74,83);(80,84)].
(** groebnerRow30_000100_f, src/absolute_pose/modules/gp3p/reductors.cpp 1554 *)
Definition gp_groebnerRow30_000100_f t := GR t 30 17 64 [(18,65);(26,68);(27,69);(40,73);(41,74);(44,75);(48,76);(53,77);(61,79);(62,80);(65,81);(69,82);(74,83);(80,84)].
(** groebnerRow36_000100_f, src/absolute_pose/modules/gp3p/reductors.cpp 1575 *)
Definition gp_groebnerRow36_000100_f t := GR t 36 14 56 [(39,72);(40,73);(41,74);(44,75);(48,76);(53,77);(60,78);(61,79);(62,80);(65,81);(69,82);(74,83);(80,84)].
(** groebnerRow36_010000_f, src/absolute_pose/modules/gp3p/reductors.cpp 1595 *)
Definition gp_groebnerRow36_010000_f t := GR t 36 15 56 [(46,72);(47,73);(48,74);(49,75);(50,76);(55,77);(67,78);(68,79);(69,80);(70,81);(71,82);(76,83);(82,84)].
(** groebnerRow44_000000_f, src/absolute_pose/modules/gp3p/reductors.cpp 1615 *)
Definition gp_groebnerRow44_000000_f t := GR t 44 60 60 [(61,61);(62,62);(77,77);(78,78);(79,79);(80,80);(81,81);(82,82);(83,83);(84,84)].
(** groebnerRow36_000010_f, src/absolute_pose/modules/gp3p/reductors.cpp 1632 *)
Definition gp_groebnerRow36_000010_f t := GR t 36 13 56 [(37,72);(38,73);(40,74);(43,75);(47,76);(52,77);(58,78);(59,79);(61,80);(64,81);(68,82);(73,83);(79,84)].
(** groebnerRow45_000000_f, src/absolute_pose/modules/gp3p/reductors.cpp 1652 *)
Definition gp_groebnerRow45_000000_f t := GR t 45 61 61 [(62,62);(77,77);(78,78);(79,79);(80,80);(81,81);(82,82);(83,83);(84,84)].
(** groebnerRow36_000001_f, src/absolute_pose/modules/gp3p/reductors.cpp 1668 *)
Definition gp_groebnerRow36_000001_f t := GR t 36 12 56 [(36,72);(37,73);(39,74);(42,75);(46,76);(51,77);(57,78);(58,79);(60,80);(63,81);(67,82);(72,83);(78,84)].
(** groebnerRow43_000000_f, src/absolute_pose/modules/gp3p/reductors.cpp 1688 *)
Definition gp_groebnerRow43_000000_f t := GR t 43 57 57 [(59,59);(60,60);(61,61);(62,62);(77,77);(78,78);(79,79);(80,80);(81,81);(82,82);(83,83);(84,84)].
(** groebnerRow46_000000_f, src/absolute_pose/modules/gp3p/reductors.cpp 1707 *)
Definition gp_groebnerRow46_000000_f t := GR t 46 59 59 [(62,62);(77,77);(78,78);(79,79);(80,80);(81,81);(82,82);(83,83);(84,84)].
(** compute, src/absolute_pose/modules/gp3p/code.cpp *)
Definition gp_compute : list gop := [
  gp_sPolynomial9;
  gp_sPolynomial10;
  gp_groebnerRow9_000000_f 10;
  gp_sPolynomial11;
  gp_groebnerRow10_000010_f 11;
  gp_groebnerRow10_000000_f 11;
  gp_sPolynomial12;
  gp_groebnerRow10_000010_f 12;
  gp_groebnerRow11_000000_f 12;
  gp_groebnerRow10_000000_f 12;
  gp_sPolynomial13;
  gp_groebnerRow10_000010_f 13;
  gp_groebnerRow10_000100_f 13;
  gp_groebnerRow12_000010_f 13;
  gp_groebnerRow12_000100_f 13;
  gp_groebnerRow10_000000_f 13;
  gp_groebnerRow12_000000_f 13;
  gp_sPolynomial14;
  gp_groebnerRow10_000100_f 14;
  gp_groebnerRow12_000100_f 14;
  gp_groebnerRow10_000000_f 14;
  gp_groebnerRow12_000000_f 14;
  gp_sPolynomial15;
  gp_groebnerRow10_000100_f 15;
  gp_groebnerRow12_000100_f 15;
  gp_groebnerRow14_000000_f 15;
  gp_groebnerRow10_000000_f 15;
  gp_groebnerRow12_000000_f 15;
  gp_sPolynomial16;
  gp_groebnerRow15_010000_f 16;
  gp_groebnerRow10_100000_f 16;
  gp_groebnerRow12_100000_f 16;
  gp_groebnerRow15_100000_f 16;
  gp_groebnerRow10_000000_f 16;
  gp_groebnerRow12_000000_f 16;
  gp_groebnerRow15_000000_f 16;
  gp_sPolynomial17;
  gp_groebnerRow15_000000_f 17;
  gp_sPolynomial18;
  gp_groebnerRow15_000100_f 18;
  gp_groebnerRow17_000000_f 18;
  gp_groebnerRow15_000000_f 18;
  gp_sPolynomial19;
  gp_groebnerRow12_010000_f 19;
  gp_groebnerRow15_010000_f 19;
  gp_groebnerRow10_100000_f 19;
  gp_groebnerRow12_100000_f 19;
  gp_groebnerRow15_100000_f 19;
  gp_groebnerRow16_000000_f 19;
  gp_groebnerRow10_000000_f 19;
  gp_groebnerRow12_000000_f 19;
  gp_groebnerRow15_000000_f 19;
  gp_sPolynomial20;
  gp_groebnerRow10_000100_f 20;
  gp_groebnerRow12_000001_f 20;
  gp_groebnerRow12_000100_f 20;
  gp_groebnerRow15_000001_f 20;
  gp_groebnerRow15_000100_f 20;
  gp_groebnerRow17_000000_f 20;
  gp_groebnerRow10_000000_f 20;
  gp_groebnerRow12_000000_f 20;
  gp_groebnerRow15_000000_f 20;
  gp_sPolynomial21;
  gp_groebnerRow19_000100_f 21;
  gp_groebnerRow17_000000_f 21;
  gp_groebnerRow16_000000_f 21;
  gp_groebnerRow19_000000_f 21;
  gp_sPolynomial22;
  gp_groebnerRow19_000010_f 22;
  gp_groebnerRow18_000000_f 22;
  gp_groebnerRow16_000000_f 22;
  gp_groebnerRow19_000000_f 22;
  gp_sPolynomial23;
  gp_groebnerRow19_000001_f 23;
  gp_groebnerRow20_000000_f 23;
  gp_groebnerRow16_000000_f 23;
  gp_groebnerRow19_000000_f 23;
  gp_sPolynomial24;
  gp_groebnerRow15_100100_f 24;
  gp_groebnerRow16_000100_f 24;
  gp_groebnerRow19_000100_f 24;
  gp_groebnerRow21_000000_f 24;
  gp_groebnerRow12_000100_f 24;
  gp_groebnerRow15_000100_f 24;
  gp_groebnerRow17_000000_f 24;
  gp_groebnerRow12_100000_f 24;
  gp_groebnerRow15_100000_f 24;
  gp_groebnerRow16_000000_f 24;
  gp_groebnerRow19_000000_f 24;
  gp_groebnerRow12_000000_f 24;
  gp_groebnerRow15_000000_f 24;
  gp_sPolynomial25;
  gp_groebnerRow15_100010_f 25;
  gp_groebnerRow16_000010_f 25;
  gp_groebnerRow19_000010_f 25;
  gp_groebnerRow22_000000_f 25;
  gp_groebnerRow12_000010_f 25;
  gp_groebnerRow15_000010_f 25;
  gp_groebnerRow18_000000_f 25;
  gp_groebnerRow12_100000_f 25;
  gp_groebnerRow15_100000_f 25;
  gp_groebnerRow16_000000_f 25;
  gp_groebnerRow19_000000_f 25;
  gp_groebnerRow12_000000_f 25;
  gp_groebnerRow15_000000_f 25;
  gp_sPolynomial26;
  gp_groebnerRow15_100001_f 26;
  gp_groebnerRow16_000001_f 26;
  gp_groebnerRow19_000001_f 26;
  gp_groebnerRow23_000000_f 26;
  gp_groebnerRow12_000001_f 26;
  gp_groebnerRow15_000001_f 26;
  gp_groebnerRow20_000000_f 26;
  gp_groebnerRow12_100000_f 26;
  gp_groebnerRow15_100000_f 26;
  gp_groebnerRow16_000000_f 26;
  gp_groebnerRow19_000000_f 26;
  gp_groebnerRow12_000000_f 26;
  gp_groebnerRow15_000000_f 26;
  gp_sPolynomial27;
  gp_groebnerRow12_100100_f 27;
  gp_groebnerRow15_100100_f 27;
  gp_groebnerRow16_000100_f 27;
  gp_groebnerRow19_000100_f 27;
  gp_groebnerRow21_000000_f 27;
  gp_groebnerRow10_000100_f 27;
  gp_groebnerRow12_000100_f 27;
  gp_groebnerRow15_000100_f 27;
  gp_groebnerRow17_000000_f 27;
  gp_groebnerRow10_100000_f 27;
  gp_groebnerRow24_000000_f 27;
  gp_groebnerRow12_100000_f 27;
  gp_groebnerRow15_100000_f 27;
  gp_groebnerRow16_000000_f 27;
  gp_groebnerRow19_000000_f 27;
  gp_groebnerRow10_000000_f 27;
  gp_groebnerRow12_000000_f 27;
  gp_groebnerRow15_000000_f 27;
  gp_sPolynomial28;
  gp_groebnerRow12_100010_f 28;
  gp_groebnerRow15_100010_f 28;
  gp_groebnerRow16_000010_f 28;
  gp_groebnerRow19_000010_f 28;
  gp_groebnerRow22_000000_f 28;
  gp_groebnerRow10_000010_f 28;
  gp_groebnerRow12_000010_f 28;
  gp_groebnerRow15_000010_f 28;
  gp_groebnerRow18_000000_f 28;
  gp_groebnerRow10_100000_f 28;
  gp_groebnerRow25_000000_f 28;
  gp_groebnerRow12_100000_f 28;
  gp_groebnerRow15_100000_f 28;
  gp_groebnerRow16_000000_f 28;
  gp_groebnerRow19_000000_f 28;
  gp_groebnerRow10_000000_f 28;
  gp_groebnerRow12_000000_f 28;
  gp_groebnerRow15_000000_f 28;
  gp_sPolynomial29;
  gp_groebnerRow12_100001_f 29;
  gp_groebnerRow15_100001_f 29;
  gp_groebnerRow16_000001_f 29;
  gp_groebnerRow19_000001_f 29;
  gp_groebnerRow23_000000_f 29;
  gp_groebnerRow10_000001_f 29;
  gp_groebnerRow12_000001_f 29;
  gp_groebnerRow15_000001_f 29;
  gp_groebnerRow20_000000_f 29;
  gp_groebnerRow10_100000_f 29;
  gp_groebnerRow26_000000_f 29;
  gp_groebnerRow12_100000_f 29;
  gp_groebnerRow15_100000_f 29;
  gp_groebnerRow16_000000_f 29;
  gp_groebnerRow19_000000_f 29;
  gp_groebnerRow10_000000_f 29;
  gp_groebnerRow12_000000_f 29;
  gp_groebnerRow15_000000_f 29;
  gp_sPolynomial30;
  gp_groebnerRow18_000000_f 30;
  gp_groebnerRow17_000000_f 30;
  gp_groebnerRow25_000000_f 30;
  gp_groebnerRow24_000000_f 30;
  gp_groebnerRow28_000000_f 30;
  gp_groebnerRow27_000000_f 30;
  gp_sPolynomial31;
  gp_groebnerRow20_000000_f 31;
  gp_groebnerRow17_000000_f 31;
  gp_groebnerRow26_000000_f 31;
  gp_groebnerRow24_000000_f 31;
  gp_groebnerRow29_000000_f 31;
  gp_groebnerRow27_000000_f 31;
  gp_sPolynomial32;
  gp_groebnerRow31_100000_f 32;
  gp_groebnerRow30_100000_f 32;
  gp_groebnerRow17_000000_f 32;
  gp_groebnerRow26_000000_f 32;
  gp_groebnerRow25_000000_f 32;
  gp_groebnerRow24_000000_f 32;
  gp_groebnerRow29_000000_f 32;
  gp_groebnerRow28_000000_f 32;
  gp_groebnerRow27_000000_f 32;
  gp_groebnerRow16_000000_f 32;
  gp_groebnerRow19_000000_f 32;
  gp_groebnerRow31_000000_f 32;
  gp_groebnerRow30_000000_f 32;
  gp_sPolynomial33;
  gp_groebnerRow26_000000_f 33;
  gp_groebnerRow25_000000_f 33;
  gp_groebnerRow24_000000_f 33;
  gp_groebnerRow29_000000_f 33;
  gp_groebnerRow28_000000_f 33;
  gp_groebnerRow27_000000_f 33;
  gp_groebnerRow16_000000_f 33;
  gp_groebnerRow19_000000_f 33;
  gp_groebnerRow31_000000_f 33;
  gp_groebnerRow30_000000_f 33;
  gp_groebnerRow32_000000_f 33;
  gp_sPolynomial34;
  gp_groebnerRow32_100000_f 34;
  gp_groebnerRow33_100000_f 34;
  gp_groebnerRow25_000000_f 34;
  gp_groebnerRow24_000000_f 34;
  gp_groebnerRow29_000000_f 34;
  gp_groebnerRow28_000000_f 34;
  gp_groebnerRow27_000000_f 34;
  gp_groebnerRow16_000000_f 34;
  gp_groebnerRow19_000000_f 34;
  gp_groebnerRow31_000000_f 34;
  gp_groebnerRow30_000000_f 34;
  gp_groebnerRow32_000000_f 34;
  gp_groebnerRow33_000000_f 34;
  gp_sPolynomial35;
  gp_groebnerRow32_100000_f 35;
  gp_groebnerRow33_100000_f 35;
  gp_groebnerRow34_100000_f 35;
  gp_groebnerRow24_000000_f 35;
  gp_groebnerRow29_000000_f 35;
  gp_groebnerRow28_000000_f 35;
  gp_groebnerRow27_000000_f 35;
  gp_groebnerRow16_000000_f 35;
  gp_groebnerRow19_000000_f 35;
  gp_groebnerRow31_000000_f 35;
  gp_groebnerRow30_000000_f 35;
  gp_groebnerRow32_000000_f 35;
  gp_groebnerRow33_000000_f 35;
  gp_groebnerRow34_000000_f 35;
  gp_sPolynomial36;
  gp_groebnerRow15_000001_f 36;
  gp_groebnerRow15_000010_f 36;
  gp_groebnerRow15_000100_f 36;
  gp_groebnerRow31_100000_f 36;
  gp_groebnerRow30_100000_f 36;
  gp_groebnerRow32_100000_f 36;
  gp_groebnerRow33_100000_f 36;
  gp_groebnerRow34_100000_f 36;
  gp_groebnerRow35_100000_f 36;
  gp_groebnerRow12_100000_f 36;
  gp_groebnerRow15_100000_f 36;
  gp_groebnerRow29_000000_f 36;
  gp_groebnerRow28_000000_f 36;
  gp_groebnerRow27_000000_f 36;
  gp_groebnerRow16_000000_f 36;
  gp_groebnerRow19_000000_f 36;
  gp_groebnerRow31_000000_f 36;
  gp_groebnerRow30_000000_f 36;
  gp_groebnerRow32_000000_f 36;
  gp_groebnerRow33_000000_f 36;
  gp_groebnerRow34_000000_f 36;
  gp_groebnerRow35_000000_f 36;
  gp_groebnerRow12_000000_f 36;
  gp_groebnerRow15_000000_f 36;
  gp_sPolynomial37;
  gp_groebnerRow12_000100_f 37;
  gp_groebnerRow15_000010_f 37;
  gp_groebnerRow15_000100_f 37;
  gp_groebnerRow30_100000_f 37;
  gp_groebnerRow32_100000_f 37;
  gp_groebnerRow33_100000_f 37;
  gp_groebnerRow34_100000_f 37;
  gp_groebnerRow35_100000_f 37;
  gp_groebnerRow12_100000_f 37;
  gp_groebnerRow15_100000_f 37;
  gp_groebnerRow29_000000_f 37;
  gp_groebnerRow28_000000_f 37;
  gp_groebnerRow27_000000_f 37;
  gp_groebnerRow16_000000_f 37;
  gp_groebnerRow19_000000_f 37;
  gp_groebnerRow31_000000_f 37;
  gp_groebnerRow30_000000_f 37;
  gp_groebnerRow32_000000_f 37;
  gp_groebnerRow33_000000_f 37;
  gp_groebnerRow34_000000_f 37;
  gp_groebnerRow35_000000_f 37;
  gp_groebnerRow12_000000_f 37;
  gp_groebnerRow15_000000_f 37;
  gp_sPolynomial38;
  gp_groebnerRow12_000100_f 38;
  gp_groebnerRow15_000001_f 38;
  gp_groebnerRow15_000100_f 38;
  gp_groebnerRow31_100000_f 38;
  gp_groebnerRow32_100000_f 38;
  gp_groebnerRow33_100000_f 38;
  gp_groebnerRow34_100000_f 38;
  gp_groebnerRow35_100000_f 38;
  gp_groebnerRow12_100000_f 38;
  gp_groebnerRow15_100000_f 38;
  gp_groebnerRow37_100000_f 38;
  gp_groebnerRow28_000000_f 38;
  gp_groebnerRow27_000000_f 38;
  gp_groebnerRow16_000000_f 38;
  gp_groebnerRow19_000000_f 38;
  gp_groebnerRow36_000000_f 38;
  gp_groebnerRow31_000000_f 38;
  gp_groebnerRow30_000000_f 38;
  gp_groebnerRow32_000000_f 38;
  gp_groebnerRow33_000000_f 38;
  gp_groebnerRow34_000000_f 38;
  gp_groebnerRow35_000000_f 38;
  gp_groebnerRow12_000000_f 38;
  gp_groebnerRow15_000000_f 38;
  gp_groebnerRow37_000000_f 38;
  gp_sPolynomial39;
  gp_groebnerRow12_000001_f 39;
  gp_groebnerRow12_000010_f 39;
  gp_groebnerRow12_000100_f 39;
  gp_groebnerRow15_000001_f 39;
  gp_groebnerRow15_000010_f 39;
  gp_groebnerRow15_000100_f 39;
  gp_groebnerRow31_100000_f 39;
  gp_groebnerRow30_100000_f 39;
  gp_groebnerRow32_100000_f 39;
  gp_groebnerRow10_100000_f 39;
  gp_groebnerRow33_100000_f 39;
  gp_groebnerRow34_100000_f 39;
  gp_groebnerRow35_100000_f 39;
  gp_groebnerRow12_100000_f 39;
  gp_groebnerRow15_100000_f 39;
  gp_groebnerRow37_100000_f 39;
  gp_groebnerRow38_100000_f 39;
  gp_groebnerRow27_000000_f 39;
  gp_groebnerRow16_000000_f 39;
  gp_groebnerRow19_000000_f 39;
  gp_groebnerRow36_000000_f 39;
  gp_groebnerRow31_000000_f 39;
  gp_groebnerRow30_000000_f 39;
  gp_groebnerRow32_000000_f 39;
  gp_groebnerRow10_000000_f 39;
  gp_groebnerRow33_000000_f 39;
  gp_groebnerRow34_000000_f 39;
  gp_groebnerRow35_000000_f 39;
  gp_groebnerRow12_000000_f 39;
  gp_groebnerRow15_000000_f 39;
  gp_groebnerRow37_000000_f 39;
  gp_groebnerRow38_000000_f 39;
  gp_sPolynomial40;
  gp_groebnerRow10_000100_f 40;
  gp_groebnerRow12_000010_f 40;
  gp_groebnerRow12_000100_f 40;
  gp_groebnerRow15_000010_f 40;
  gp_groebnerRow15_000100_f 40;
  gp_groebnerRow30_100000_f 40;
  gp_groebnerRow32_100000_f 40;
  gp_groebnerRow10_100000_f 40;
  gp_groebnerRow33_100000_f 40;
  gp_groebnerRow34_100000_f 40;
  gp_groebnerRow35_100000_f 40;
  gp_groebnerRow12_100000_f 40;
  gp_groebnerRow15_100000_f 40;
  gp_groebnerRow37_100000_f 40;
  gp_groebnerRow38_100000_f 40;
  gp_groebnerRow39_100000_f 40;
  gp_groebnerRow16_000000_f 40;
  gp_groebnerRow19_000000_f 40;
  gp_groebnerRow36_000000_f 40;
  gp_groebnerRow30_000000_f 40;
  gp_groebnerRow32_000000_f 40;
  gp_groebnerRow10_000000_f 40;
  gp_groebnerRow33_000000_f 40;
  gp_groebnerRow34_000000_f 40;
  gp_groebnerRow35_000000_f 40;
  gp_groebnerRow12_000000_f 40;
  gp_groebnerRow15_000000_f 40;
  gp_groebnerRow37_000000_f 40;
  gp_groebnerRow38_000000_f 40;
  gp_groebnerRow39_000000_f 40;
  gp_sPolynomial41;
  gp_groebnerRow10_000100_f 41;
  gp_groebnerRow12_000001_f 41;
  gp_groebnerRow12_000100_f 41;
  gp_groebnerRow15_000001_f 41;
  gp_groebnerRow15_000100_f 41;
  gp_groebnerRow31_100000_f 41;
  gp_groebnerRow32_100000_f 41;
  gp_groebnerRow10_100000_f 41;
  gp_groebnerRow33_100000_f 41;
  gp_groebnerRow34_100000_f 41;
  gp_groebnerRow35_100000_f 41;
  gp_groebnerRow12_100000_f 41;
  gp_groebnerRow15_100000_f 41;
  gp_groebnerRow37_100000_f 41;
  gp_groebnerRow38_100000_f 41;
  gp_groebnerRow39_100000_f 41;
  gp_groebnerRow40_100000_f 41;
  gp_groebnerRow19_000000_f 41;
  gp_groebnerRow36_000000_f 41;
  gp_groebnerRow31_000000_f 41;
  gp_groebnerRow32_000000_f 41;
  gp_groebnerRow10_000000_f 41;
  gp_groebnerRow33_000000_f 41;
  gp_groebnerRow34_000000_f 41;
  gp_groebnerRow35_000000_f 41;
  gp_groebnerRow12_000000_f 41;
  gp_groebnerRow15_000000_f 41;
  gp_groebnerRow37_000000_f 41;
  gp_groebnerRow38_000000_f 41;
  gp_groebnerRow39_000000_f 41;
  gp_groebnerRow40_000000_f 41;
  gp_sPolynomial42;
  gp_groebnerRow32_000100_f 42;
  gp_groebnerRow33_000010_f 42;
  gp_groebnerRow34_000010_f 42;
  gp_groebnerRow33_000100_f 42;
  gp_groebnerRow34_000100_f 42;
  gp_groebnerRow35_000100_f 42;
  gp_groebnerRow37_000010_f 42;
  gp_groebnerRow38_000010_f 42;
  gp_groebnerRow37_000100_f 42;
  gp_groebnerRow38_000100_f 42;
  gp_groebnerRow39_000100_f 42;
  gp_groebnerRow30_100000_f 42;
  gp_groebnerRow32_100000_f 42;
  gp_groebnerRow33_100000_f 42;
  gp_groebnerRow34_100000_f 42;
  gp_groebnerRow35_100000_f 42;
  gp_groebnerRow37_100000_f 42;
  gp_groebnerRow38_100000_f 42;
  gp_groebnerRow39_100000_f 42;
  gp_groebnerRow40_100000_f 42;
  gp_groebnerRow41_100000_f 42;
  gp_groebnerRow36_000000_f 42;
  gp_groebnerRow30_000000_f 42;
  gp_groebnerRow32_000000_f 42;
  gp_groebnerRow33_000000_f 42;
  gp_groebnerRow34_000000_f 42;
  gp_groebnerRow35_000000_f 42;
  gp_groebnerRow37_000000_f 42;
  gp_groebnerRow38_000000_f 42;
  gp_groebnerRow39_000000_f 42;
  gp_groebnerRow40_000000_f 42;
  gp_groebnerRow41_000000_f 42;
  gp_sPolynomial43;
  gp_groebnerRow32_000100_f 43;
  gp_groebnerRow33_000001_f 43;
  gp_groebnerRow33_000010_f 43;
  gp_groebnerRow34_000010_f 43;
  gp_groebnerRow33_000100_f 43;
  gp_groebnerRow34_000100_f 43;
  gp_groebnerRow35_000100_f 43;
  gp_groebnerRow37_000001_f 43;
  gp_groebnerRow37_000010_f 43;
  gp_groebnerRow38_000010_f 43;
  gp_groebnerRow37_000100_f 43;
  gp_groebnerRow38_000100_f 43;
  gp_groebnerRow39_000100_f 43;
  gp_groebnerRow31_100000_f 43;
  gp_groebnerRow30_100000_f 43;
  gp_groebnerRow32_100000_f 43;
  gp_groebnerRow33_100000_f 43;
  gp_groebnerRow34_100000_f 43;
  gp_groebnerRow35_100000_f 43;
  gp_groebnerRow37_100000_f 43;
  gp_groebnerRow38_100000_f 43;
  gp_groebnerRow39_100000_f 43;
  gp_groebnerRow40_100000_f 43;
  gp_groebnerRow41_100000_f 43;
  gp_groebnerRow36_000000_f 43;
  gp_groebnerRow42_000000_f 43;
  gp_groebnerRow31_000000_f 43;
  gp_groebnerRow30_000000_f 43;
  gp_groebnerRow32_000000_f 43;
  gp_groebnerRow33_000000_f 43;
  gp_groebnerRow34_000000_f 43;
  gp_groebnerRow35_000000_f 43;
  gp_groebnerRow37_000000_f 43;
  gp_groebnerRow38_000000_f 43;
  gp_groebnerRow39_000000_f 43;
  gp_groebnerRow40_000000_f 43;
  gp_groebnerRow41_000000_f 43;
  gp_sPolynomial44;
  gp_groebnerRow31_000100_f 44;
  gp_groebnerRow30_000100_f 44;
  gp_groebnerRow33_000100_f 44;
  gp_groebnerRow34_000100_f 44;
  gp_groebnerRow35_000100_f 44;
  gp_groebnerRow37_000100_f 44;
  gp_groebnerRow38_000100_f 44;
  gp_groebnerRow39_000100_f 44;
  gp_groebnerRow31_100000_f 44;
  gp_groebnerRow30_100000_f 44;
  gp_groebnerRow32_100000_f 44;
  gp_groebnerRow33_100000_f 44;
  gp_groebnerRow34_100000_f 44;
  gp_groebnerRow35_100000_f 44;
  gp_groebnerRow37_100000_f 44;
  gp_groebnerRow38_100000_f 44;
  gp_groebnerRow39_100000_f 44;
  gp_groebnerRow40_100000_f 44;
  gp_groebnerRow41_100000_f 44;
  gp_groebnerRow36_000000_f 44;
  gp_groebnerRow31_000000_f 44;
  gp_groebnerRow30_000000_f 44;
  gp_groebnerRow32_000000_f 44;
  gp_groebnerRow33_000000_f 44;
  gp_groebnerRow34_000000_f 44;
  gp_groebnerRow35_000000_f 44;
  gp_groebnerRow37_000000_f 44;
  gp_groebnerRow38_000000_f 44;
  gp_groebnerRow39_000000_f 44;
  gp_groebnerRow40_000000_f 44;
  gp_groebnerRow41_000000_f 44;
  gp_sPolynomial45;
  gp_groebnerRow36_000100_f 45;
  gp_groebnerRow36_010000_f 45;
  gp_groebnerRow12_000100_f 45;
  gp_groebnerRow15_000100_f 45;
  gp_groebnerRow37_000100_f 45;
  gp_groebnerRow38_000100_f 45;
  gp_groebnerRow39_000100_f 45;
  gp_groebnerRow32_100000_f 45;
  gp_groebnerRow33_100000_f 45;
  gp_groebnerRow34_100000_f 45;
  gp_groebnerRow35_100000_f 45;
  gp_groebnerRow12_100000_f 45;
  gp_groebnerRow15_100000_f 45;
  gp_groebnerRow37_100000_f 45;
  gp_groebnerRow38_100000_f 45;
  gp_groebnerRow39_100000_f 45;
  gp_groebnerRow40_100000_f 45;
  gp_groebnerRow41_100000_f 45;
  gp_groebnerRow36_000000_f 45;
  gp_groebnerRow44_000000_f 45;
  gp_groebnerRow32_000000_f 45;
  gp_groebnerRow33_000000_f 45;
  gp_groebnerRow34_000000_f 45;
  gp_groebnerRow35_000000_f 45;
  gp_groebnerRow12_000000_f 45;
  gp_groebnerRow15_000000_f 45;
  gp_groebnerRow37_000000_f 45;
  gp_groebnerRow38_000000_f 45;
  gp_groebnerRow39_000000_f 45;
  gp_groebnerRow40_000000_f 45;
  gp_groebnerRow41_000000_f 45;
  gp_sPolynomial46;
  gp_groebnerRow36_000010_f 46;
  gp_groebnerRow36_010000_f 46;
  gp_groebnerRow12_000010_f 46;
  gp_groebnerRow15_000010_f 46;
  gp_groebnerRow37_000010_f 46;
  gp_groebnerRow38_000010_f 46;
  gp_groebnerRow38_000100_f 46;
  gp_groebnerRow39_000100_f 46;
  gp_groebnerRow30_100000_f 46;
  gp_groebnerRow32_100000_f 46;
  gp_groebnerRow33_100000_f 46;
  gp_groebnerRow34_100000_f 46;
  gp_groebnerRow35_100000_f 46;
  gp_groebnerRow12_100000_f 46;
  gp_groebnerRow15_100000_f 46;
  gp_groebnerRow37_100000_f 46;
  gp_groebnerRow38_100000_f 46;
  gp_groebnerRow39_100000_f 46;
  gp_groebnerRow40_100000_f 46;
  gp_groebnerRow41_100000_f 46;
  gp_groebnerRow36_000000_f 46;
  gp_groebnerRow42_000000_f 46;
  gp_groebnerRow44_000000_f 46;
  gp_groebnerRow45_000000_f 46;
  gp_groebnerRow30_000000_f 46;
  gp_groebnerRow32_000000_f 46;
  gp_groebnerRow33_000000_f 46;
  gp_groebnerRow34_000000_f 46;
  gp_groebnerRow35_000000_f 46;
  gp_groebnerRow12_000000_f 46;
  gp_groebnerRow15_000000_f 46;
  gp_groebnerRow37_000000_f 46;
  gp_groebnerRow38_000000_f 46;
  gp_groebnerRow39_000000_f 46;
  gp_groebnerRow40_000000_f 46;
  gp_groebnerRow41_000000_f 46;
  gp_sPolynomial47;
  gp_groebnerRow36_000001_f 47;
  gp_groebnerRow36_010000_f 47;
  gp_groebnerRow12_000001_f 47;
  gp_groebnerRow15_000001_f 47;
  gp_groebnerRow37_000001_f 47;
  gp_groebnerRow37_000010_f 47;
  gp_groebnerRow38_000010_f 47;
  gp_groebnerRow37_000100_f 47;
  gp_groebnerRow38_000100_f 47;
  gp_groebnerRow39_000100_f 47;
  gp_groebnerRow31_100000_f 47;
  gp_groebnerRow30_100000_f 47;
  gp_groebnerRow32_100000_f 47;
  gp_groebnerRow33_100000_f 47;
  gp_groebnerRow34_100000_f 47;
  gp_groebnerRow35_100000_f 47;
  gp_groebnerRow12_100000_f 47;
  gp_groebnerRow15_100000_f 47;
  gp_groebnerRow37_100000_f 47;
  gp_groebnerRow38_100000_f 47;
  gp_groebnerRow39_100000_f 47;
  gp_groebnerRow40_100000_f 47;
  gp_groebnerRow41_100000_f 47;
  gp_groebnerRow36_000000_f 47;
  gp_groebnerRow43_000000_f 47;
  gp_groebnerRow42_000000_f 47;
  gp_groebnerRow46_000000_f 47;
  gp_groebnerRow44_000000_f 47;
  gp_groebnerRow45_000000_f 47;
  gp_groebnerRow31_000000_f 47;
  gp_groebnerRow30_000000_f 47;
  gp_groebnerRow32_000000_f 47;
  gp_groebnerRow33_000000_f 47;
  gp_groebnerRow34_000000_f 47;
  gp_groebnerRow35_000000_f 47;
  gp_groebnerRow12_000000_f 47;
  gp_groebnerRow15_000000_f 47;
  gp_groebnerRow37_000000_f 47;
  gp_groebnerRow38_000000_f 47;
  gp_groebnerRow39_000000_f 47;
  gp_groebnerRow40_000000_f 47;
  gp_groebnerRow41_000000_f 47;
  GN 10 66;
  GN 12 70;
  GN 15 71;
  GN 30 64;
  GN 31 63;
  GN 32 65;
  GN 33 67;
  GN 34 68;
  GN 35 69;
  GN 36 56;
  GN 37 72;
  GN 38 73;
  GN 39 74;
  GN 40 75;
  GN 41 76;
  GN 42 58;
  GN 43 57;
  GN 44 60;
  GN 45 61;
  GN 46 59;
  GN 47 62;
  GE 10 70 12;
  GE 10 71 15;
  GE 10 75 40;
  GE 10 76 41;
  GE 12 71 15;
  GE 12 75 40;
  GE 12 76 41;
  GE 15 75 40;
  GE 15 76 41;
  GE 30 65 32;
  GE 30 67 33;
  GE 30 68 34;
  GE 30 69 35;
  GE 30 72 37;
  GE 30 73 38;
  GE 30 74 39;
  GE 30 75 40;
  GE 30 76 41;
  GE 31 65 32;
  GE 31 67 33;
  GE 31 68 34;
  GE 31 69 35;
  GE 31 72 37;
  GE 31 73 38;
  GE 31 74 39;
  GE 31 75 40;
  GE 31 76 41;
  GE 32 67 33;
  GE 32 68 34;
  GE 32 69 35;
  GE 32 72 37;
  GE 32 73 38;
  GE 32 74 39;
  GE 32 75 40;
  GE 32 76 41;
  GE 33 68 34;
  GE 33 69 35;
  GE 33 72 37;
  GE 33 73 38;
  GE 33 74 39;
  GE 33 75 40;
  GE 33 76 41;
  GE 34 69 35;
  GE 34 72 37;
  GE 34 73 38;
  GE 34 74 39;
  GE 34 75 40;
  GE 34 76 41;
  GE 35 72 37;
  GE 35 73 38;
  GE 35 74 39;
  GE 35 75 40;
  GE 35 76 41;
  GE 36 72 37;
  GE 36 73 38;
  GE 36 74 39;
  GE 36 75 40;
  GE 36 76 41;
  GE 37 73 38;
  GE 37 74 39;
  GE 37 75 40;
  GE 37 76 41;
  GE 38 74 39;
  GE 38 75 40;
  GE 38 76 41;
  GE 39 75 40;
  GE 39 76 41;
  GE 40 76 41;
  GE 42 59 46;
  GE 42 60 44;
  GE 42 61 45;
  GE 42 62 47;
  GE 43 59 46;
  GE 43 60 44;
  GE 43 61 45;
  GE 43 62 47;
  GE 44 61 45;
  GE 44 62 47;
  GE 45 62 47;
  GE 46 62 47].
