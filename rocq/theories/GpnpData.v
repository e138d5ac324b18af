(** Generated by tools/gen_gb.py from the Groebner templates
    src/absolute_pose/modules/gpnp1 ... gpnp5: each sPolynomial and groebnerRow
    function and the statement sequence of compute.  Definitions only. *)
From Coq Require Import List.
From Verif Require Import GbModel.
Import ListNotations.

(** * gpnp1: 5 x 3 matrix, groebnerMatrix of src/absolute_pose/modules/gpnp1/ *)
Definition g1_rows := 5.
Definition g1_cols := 3.
(** exponents of the monomial of each column, src/absolute_pose/modules/gpnp1/ *)
Definition g1_mon : list (list nat) := [[2];[1];[0]].
(** the entries init writes, src/absolute_pose/modules/gpnp1/init.cpp *)
Definition g1_keys : list (nat * nat) := [(0,0);(0,1);(0,2);(1,0);(1,1);(1,2);(2,0);(2,1);(2,2)].
(** sPolynomial3, src/absolute_pose/modules/gpnp1/spolynomials.cpp 36 *)
Definition g1_sPolynomial3 := GS 3 0 0 1 0 [(1,Some 1,Some 1);(2,Some 2,Some 2)].
(** sPolynomial4, src/absolute_pose/modules/gpnp1/spolynomials.cpp 43 *)
Definition g1_sPolynomial4 := GS 4 1 0 2 0 [(1,Some 1,Some 1);(2,Some 2,Some 2)].
(** groebnerRow3_0_f, src/absolute_pose/modules/gpnp1/reductors.cpp 36 *)
Definition g1_groebnerRow3_0_f t := GR t 3 1 1 [(2,2)].
(** compute, src/absolute_pose/modules/gpnp1/code.cpp *)
Definition g1_compute : list gop := [
  g1_sPolynomial3;
  g1_sPolynomial4;
  g1_groebnerRow3_0_f 4].

(** * gpnp2: 10 x 6 matrix, groebnerMatrix of src/absolute_pose/modules/gpnp2/ *)
Definition g2_rows := 10.
Definition g2_cols := 6.
(** exponents of the monomial of each column, src/absolute_pose/modules/gpnp2/ *)
Definition g2_mon : list (list nat) := [[0;2];[1;1];[2;0];[0;1];[1;0];[0;0]].
(** the entries init writes, src/absolute_pose/modules/gpnp2/init.cpp *)
Definition g2_keys : list (nat * nat) := [(0,0);(0,1);(0,2);(0,3);(0,4);(0,5);(1,0);(1,1);(1,2);(1,3);(1,4);(1,5);(2,0);(2,1);(2,2);(2,3);(2,4);(2,5);(3,0);(3,1);(3,2);(3,3);(3,4);(3,5);(4,0);(4,1);(4,2);(4,3);(4,4);(4,5)].
(** sPolynomial5, src/absolute_pose/modules/gpnp2/spolynomials.cpp 36 *)
Definition g2_sPolynomial5 := GS 5 0 0 1 0 [(1,Some 1,Some 1);(2,Some 2,Some 2);(3,Some 3,Some 3);(4,Some 4,Some 4);(5,Some 5,Some 5)].
(** sPolynomial6, src/absolute_pose/modules/gpnp2/spolynomials.cpp 46 *)
Definition g2_sPolynomial6 := GS 6 1 0 2 0 [(1,Some 1,Some 1);(2,Some 2,Some 2);(3,Some 3,Some 3);(4,Some 4,Some 4);(5,Some 5,Some 5)].
(** sPolynomial7, src/absolute_pose/modules/gpnp2/spolynomials.cpp 56 *)
Definition g2_sPolynomial7 := GS 7 2 0 3 0 [(1,Some 1,Some 1);(2,Some 2,Some 2);(3,Some 3,Some 3);(4,Some 4,Some 4);(5,Some 5,Some 5)].
(** sPolynomial8, src/absolute_pose/modules/gpnp2/spolynomials.cpp 66 *)
Definition g2_sPolynomial8 := GS 8 3 0 4 0 [(1,Some 1,Some 1);(2,Some 2,Some 2);(3,Some 3,Some 3);(4,Some 4,Some 4);(5,Some 5,Some 5)].
(** sPolynomial9, src/absolute_pose/modules/gpnp2/spolynomials.cpp 76 *)
Definition g2_sPolynomial9 := GS 9 6 2 8 4 [(3,Some 3,None);(4,Some 4,Some 5);(5,Some 5,None)].
(** groebnerRow5_00_f, src/absolute_pose/modules/gpnp2/reductors.cpp 36 *)
Definition g2_groebnerRow5_00_f t := GR t 5 1 1 [(2,2);(3,3);(4,4);(5,5)].
(** groebnerRow6_00_f, src/absolute_pose/modules/gpnp2/reductors.cpp 47 *)
Definition g2_groebnerRow6_00_f t := GR t 6 2 2 [(3,3);(4,4);(5,5)].
(** groebnerRow7_10_f, src/absolute_pose/modules/gpnp2/reductors.cpp 57 *)
Definition g2_groebnerRow7_10_f t := GR t 7 1 3 [(2,4);(4,5)].
(** groebnerRow7_00_f, src/absolute_pose/modules/gpnp2/reductors.cpp 66 *)
Definition g2_groebnerRow7_00_f t := GR t 7 3 3 [(4,4);(5,5)].
(** groebnerRow8_00_f, src/absolute_pose/modules/gpnp2/reductors.cpp 75 *)
Definition g2_groebnerRow8_00_f t := GR t 8 4 4 [(5,5)].
(** compute, src/absolute_pose/modules/gpnp2/code.cpp *)
Definition g2_compute : list gop := [
  g2_sPolynomial5;
  g2_sPolynomial6;
  g2_groebnerRow5_00_f 6;
  g2_sPolynomial7;
  g2_groebnerRow5_00_f 7;
  g2_groebnerRow6_00_f 7;
  g2_sPolynomial8;
  g2_groebnerRow7_10_f 8;
  g2_groebnerRow6_00_f 8;
  g2_groebnerRow7_00_f 8;
  g2_sPolynomial9;
  g2_groebnerRow7_00_f 9;
  g2_groebnerRow8_00_f 9].

(** * gpnp3: 15 x 18 matrix, groebnerMatrix of src/absolute_pose/modules/gpnp3/ *)
Definition g3_rows := 15.
Definition g3_cols := 18.
(** exponents of the monomial of each column, src/absolute_pose/modules/gpnp3/ *)
Definition g3_mon : list (list nat) := [[0;2;1];[0;3;0];[1;0;2];[1;1;1];[1;2;0];[2;0;1];[2;1;0];[3;0;0];[0;0;2];[0;1;1];[0;2;0];[1;0;1];[1;1;0];[2;0;0];[0;0;1];[0;1;0];[1;0;0];[0;0;0]].
(** the entries init writes, src/absolute_pose/modules/gpnp3/init.cpp *)
Definition g3_keys : list (nat * nat) := [(0,8);(0,9);(0,10);(0,11);(0,12);(0,13);(0,14);(0,15);(0,16);(0,17);(1,8);(1,9);(1,10);(1,11);(1,12);(1,13);(1,14);(1,15);(1,16);(1,17);(2,8);(2,9);(2,10);(2,11);(2,12);(2,13);(2,14);(2,15);(2,16);(2,17);(3,8);(3,9);(3,10);(3,11);(3,12);(3,13);(3,14);(3,15);(3,16);(3,17)].
(** sPolynomial4, src/absolute_pose/modules/gpnp3/spolynomials.cpp 36 *)
Definition g3_sPolynomial4 := GS 4 0 8 1 8 [(9,Some 9,Some 9);(10,Some 10,Some 10);(11,Some 11,Some 11);(12,Some 12,Some 12);(13,Some 13,Some 13);(14,Some 14,Some 14);(15,Some 15,Some 15);(16,Some 16,Some 16);(17,Some 17,Some 17)].
(** sPolynomial5, src/absolute_pose/modules/gpnp3/spolynomials.cpp 50 *)
Definition g3_sPolynomial5 := GS 5 1 8 2 8 [(9,Some 9,Some 9);(10,Some 10,Some 10);(11,Some 11,Some 11);(12,Some 12,Some 12);(13,Some 13,Some 13);(14,Some 14,Some 14);(15,Some 15,Some 15);(16,Some 16,Some 16);(17,Some 17,Some 17)].
(** sPolynomial6, src/absolute_pose/modules/gpnp3/spolynomials.cpp 64 *)
Definition g3_sPolynomial6 := GS 6 2 8 3 8 [(9,Some 9,Some 9);(10,Some 10,Some 10);(11,Some 11,Some 11);(12,Some 12,Some 12);(13,Some 13,Some 13);(14,Some 14,Some 14);(15,Some 15,Some 15);(16,Some 16,Some 16);(17,Some 17,Some 17)].
(** sPolynomial7, src/absolute_pose/modules/gpnp3/spolynomials.cpp 78 *)
Definition g3_sPolynomial7 := GS 7 4 9 6 11 [(4,Some 10,Some 12);(5,Some 11,None);(6,Some 12,Some 13);(7,Some 13,None);(9,None,Some 14);(10,None,Some 15);(11,Some 14,None);(12,Some 15,Some 16);(13,Some 16,None);(15,None,Some 17);(16,Some 17,None)].
(** sPolynomial8, src/absolute_pose/modules/gpnp3/spolynomials.cpp 94 *)
Definition g3_sPolynomial8 := GS 8 3 8 6 11 [(3,Some 9,Some 12);(4,Some 10,None);(5,Some 11,Some 13);(6,Some 12,None);(7,Some 13,None);(8,None,Some 14);(9,None,Some 15);(11,Some 14,Some 16);(12,Some 15,None);(13,Some 16,None);(14,None,Some 17);(16,Some 17,None)].
(** sPolynomial9, src/absolute_pose/modules/gpnp3/spolynomials.cpp 111 *)
Definition g3_sPolynomial9 := GS 9 4 9 5 10 [(1,Some 10,None);(2,None,Some 11);(3,Some 11,Some 12);(4,Some 12,None);(5,None,Some 13);(6,Some 13,None);(8,None,Some 14);(9,Some 14,Some 15);(10,Some 15,None);(11,None,Some 16);(12,Some 16,None);(14,None,Some 17);(15,Some 17,None)].
(** sPolynomial10, src/absolute_pose/modules/gpnp3/spolynomials.cpp 129 *)
Definition g3_sPolynomial10 := GS 10 3 8 4 9 [(0,Some 9,Some 10);(1,Some 10,None);(2,None,Some 11);(3,Some 11,Some 12);(4,Some 12,None);(5,None,Some 13);(6,Some 13,None);(8,None,Some 14);(9,Some 14,Some 15);(10,Some 15,None);(11,None,Some 16);(12,Some 16,None);(14,None,Some 17);(15,Some 17,None)].
(** sPolynomial11, src/absolute_pose/modules/gpnp3/spolynomials.cpp 148 *)
Definition g3_sPolynomial11 := GS 11 8 7 10 13 [(11,None,Some 14);(12,Some 12,Some 15);(13,Some 13,Some 16);(14,Some 14,None);(15,Some 15,None);(16,Some 16,Some 17);(17,Some 17,None)].
(** sPolynomial12, src/absolute_pose/modules/gpnp3/spolynomials.cpp 160 *)
Definition g3_sPolynomial12 := GS 12 7 6 9 12 [(7,Some 7,Some 13);(11,None,Some 14);(12,Some 12,Some 15);(13,Some 13,Some 16);(14,Some 14,None);(15,Some 15,None);(16,Some 16,Some 17);(17,Some 17,None)].
(** sPolynomial13, src/absolute_pose/modules/gpnp3/spolynomials.cpp 173 *)
Definition g3_sPolynomial13 := GS 13 9 12 10 13 [(7,Some 13,None);(9,None,Some 14);(10,None,Some 15);(11,Some 14,None);(12,Some 15,Some 16);(13,Some 16,None);(15,None,Some 17);(16,Some 17,None)].
(** sPolynomial14, src/absolute_pose/modules/gpnp3/spolynomials.cpp 186 *)
Definition g3_sPolynomial14 := GS 14 10 13 13 16 [(14,Some 14,None);(15,Some 15,None);(16,Some 16,Some 17);(17,Some 17,None)].
(** groebnerRow4_000_f, src/absolute_pose/modules/gpnp3/reductors.cpp 36 *)
Definition g3_groebnerRow4_000_f t := GR t 4 9 9 [(10,10);(11,11);(12,12);(13,13);(14,14);(15,15);(16,16);(17,17)].
(** groebnerRow5_000_f, src/absolute_pose/modules/gpnp3/reductors.cpp 51 *)
Definition g3_groebnerRow5_000_f t := GR t 5 10 10 [(11,11);(12,12);(13,13);(14,14);(15,15);(16,16);(17,17)].
(** groebnerRow5_100_f, src/absolute_pose/modules/gpnp3/reductors.cpp 65 *)
Definition g3_groebnerRow5_100_f t := GR t 5 4 10 [(5,11);(6,12);(7,13);(11,14);(12,15);(13,16);(16,17)].
(** groebnerRow6_100_f, src/absolute_pose/modules/gpnp3/reductors.cpp 79 *)
Definition g3_groebnerRow6_100_f t := GR t 6 5 11 [(6,12);(7,13);(11,14);(12,15);(13,16);(16,17)].
(** groebnerRow6_000_f, src/absolute_pose/modules/gpnp3/reductors.cpp 92 *)
Definition g3_groebnerRow6_000_f t := GR t 6 11 11 [(12,12);(13,13);(14,14);(15,15);(16,16);(17,17)].
(** groebnerRow4_100_f, src/absolute_pose/modules/gpnp3/reductors.cpp 105 *)
Definition g3_groebnerRow4_100_f t := GR t 4 3 9 [(4,10);(5,11);(6,12);(7,13);(11,14);(12,15);(13,16);(16,17)].
(** groebnerRow7_000_f, src/absolute_pose/modules/gpnp3/reductors.cpp 120 *)
Definition g3_groebnerRow7_000_f t := GR t 7 6 6 [(7,7);(12,12);(13,13);(14,14);(15,15);(16,16);(17,17)].
(** groebnerRow3_000_f, src/absolute_pose/modules/gpnp3/reductors.cpp 134 *)
Definition g3_groebnerRow3_000_f t := GR t 3 8 8 [(9,9);(10,10);(11,11);(12,12);(13,13);(14,14);(15,15);(16,16);(17,17)].
(** groebnerRow5_010_f, src/absolute_pose/modules/gpnp3/reductors.cpp 150 *)
Definition g3_groebnerRow5_010_f t := GR t 5 1 10 [(3,11);(4,12);(6,13);(9,14);(10,15);(12,16);(15,17)].
(** groebnerRow3_100_f, src/absolute_pose/modules/gpnp3/reductors.cpp 164 *)
Definition g3_groebnerRow3_100_f t := GR t 3 2 8 [(3,9);(4,10);(5,11);(6,12);(7,13);(11,14);(12,15);(13,16);(16,17)].
(** groebnerRow8_000_f, src/absolute_pose/modules/gpnp3/reductors.cpp 180 *)
Definition g3_groebnerRow8_000_f t := GR t 8 7 7 [(12,12);(13,13);(14,14);(15,15);(16,16);(17,17)].
(** groebnerRow4_010_f, src/absolute_pose/modules/gpnp3/reductors.cpp 193 *)
Definition g3_groebnerRow4_010_f t := GR t 4 0 9 [(1,10);(3,11);(4,12);(6,13);(9,14);(10,15);(12,16);(15,17)].
(** groebnerRow9_100_f, src/absolute_pose/modules/gpnp3/reductors.cpp 208 *)
Definition g3_groebnerRow9_100_f t := GR t 9 6 12 [(7,13);(11,14);(12,15);(13,16);(16,17)].
(** groebnerRow9_000_f, src/absolute_pose/modules/gpnp3/reductors.cpp 220 *)
Definition g3_groebnerRow9_000_f t := GR t 9 12 12 [(13,13);(14,14);(15,15);(16,16);(17,17)].
(** groebnerRow10_000_f, src/absolute_pose/modules/gpnp3/reductors.cpp 232 *)
Definition g3_groebnerRow10_000_f t := GR t 10 13 13 [(14,14);(15,15);(16,16);(17,17)].
(** groebnerRow10_100_f, src/absolute_pose/modules/gpnp3/reductors.cpp 243 *)
Definition g3_groebnerRow10_100_f t := GR t 10 7 13 [(11,14);(12,15);(13,16);(16,17)].
(** groebnerRow11_100_f, src/absolute_pose/modules/gpnp3/reductors.cpp 254 *)
Definition g3_groebnerRow11_100_f t := GR t 11 11 14 [(12,15);(13,16);(16,17)].
(** groebnerRow11_000_f, src/absolute_pose/modules/gpnp3/reductors.cpp 264 *)
Definition g3_groebnerRow11_000_f t := GR t 11 14 14 [(15,15);(16,16);(17,17)].
(** groebnerRow11_010_f, src/absolute_pose/modules/gpnp3/reductors.cpp 274 *)
Definition g3_groebnerRow11_010_f t := GR t 11 9 14 [(10,15);(12,16);(15,17)].
(** groebnerRow12_010_f, src/absolute_pose/modules/gpnp3/reductors.cpp 284 *)
Definition g3_groebnerRow12_010_f t := GR t 12 10 15 [(12,16);(15,17)].
(** groebnerRow12_100_f, src/absolute_pose/modules/gpnp3/reductors.cpp 293 *)
Definition g3_groebnerRow12_100_f t := GR t 12 12 15 [(13,16);(16,17)].
(** groebnerRow12_000_f, src/absolute_pose/modules/gpnp3/reductors.cpp 302 *)
Definition g3_groebnerRow12_000_f t := GR t 12 15 15 [(16,16);(17,17)].
(** groebnerRow13_000_f, src/absolute_pose/modules/gpnp3/reductors.cpp 311 *)
Definition g3_groebnerRow13_000_f t := GR t 13 16 16 [(17,17)].
(** compute, src/absolute_pose/modules/gpnp3/code.cpp *)
Definition g3_compute : list gop := [
  g3_sPolynomial4;
  g3_sPolynomial5;
  g3_groebnerRow4_000_f 5;
  g3_sPolynomial6;
  g3_groebnerRow4_000_f 6;
  g3_groebnerRow5_000_f 6;
  g3_sPolynomial7;
  g3_groebnerRow5_100_f 7;
  g3_groebnerRow6_100_f 7;
  g3_groebnerRow4_000_f 7;
  g3_groebnerRow5_000_f 7;
  g3_groebnerRow6_000_f 7;
  g3_sPolynomial8;
  g3_groebnerRow4_100_f 8;
  g3_groebnerRow5_100_f 8;
  g3_groebnerRow6_100_f 8;
  g3_groebnerRow7_000_f 8;
  g3_groebnerRow3_000_f 8;
  g3_groebnerRow4_000_f 8;
  g3_groebnerRow5_000_f 8;
  g3_groebnerRow6_000_f 8;
  g3_sPolynomial9;
  g3_groebnerRow5_010_f 9;
  g3_groebnerRow3_100_f 9;
  g3_groebnerRow4_100_f 9;
  g3_groebnerRow5_100_f 9;
  g3_groebnerRow6_100_f 9;
  g3_groebnerRow7_000_f 9;
  g3_groebnerRow8_000_f 9;
  g3_groebnerRow3_000_f 9;
  g3_groebnerRow4_000_f 9;
  g3_groebnerRow5_000_f 9;
  g3_groebnerRow6_000_f 9;
  g3_sPolynomial10;
  g3_groebnerRow4_010_f 10;
  g3_groebnerRow5_010_f 10;
  g3_groebnerRow3_100_f 10;
  g3_groebnerRow4_100_f 10;
  g3_groebnerRow5_100_f 10;
  g3_groebnerRow6_100_f 10;
  g3_groebnerRow9_100_f 10;
  g3_groebnerRow8_000_f 10;
  g3_groebnerRow3_000_f 10;
  g3_groebnerRow4_000_f 10;
  g3_groebnerRow5_000_f 10;
  g3_groebnerRow6_000_f 10;
  g3_groebnerRow9_000_f 10;
  g3_sPolynomial11;
  g3_groebnerRow6_000_f 11;
  g3_groebnerRow9_000_f 11;
  g3_groebnerRow10_000_f 11;
  g3_sPolynomial12;
  g3_groebnerRow10_100_f 12;
  g3_groebnerRow11_100_f 12;
  g3_groebnerRow9_000_f 12;
  g3_groebnerRow10_000_f 12;
  g3_groebnerRow11_000_f 12;
  g3_sPolynomial13;
  g3_groebnerRow10_100_f 13;
  g3_groebnerRow11_010_f 13;
  g3_groebnerRow12_010_f 13;
  g3_groebnerRow11_100_f 13;
  g3_groebnerRow12_100_f 13;
  g3_groebnerRow10_000_f 13;
  g3_groebnerRow11_000_f 13;
  g3_groebnerRow12_000_f 13;
  g3_sPolynomial14;
  g3_groebnerRow11_000_f 14;
  g3_groebnerRow12_000_f 14;
  g3_groebnerRow13_000_f 14].

(** * gpnp4: 25 x 37 matrix, groebnerMatrix of src/absolute_pose/modules/gpnp4/ *)
Definition g4_rows := 25.
Definition g4_cols := 37.
(** exponents of the monomial of each column, src/absolute_pose/modules/gpnp4/ *)
Definition g4_mon : list (list nat) := [[3;0;0;1];[3;0;1;0];[3;1;0;0];[4;0;0;0];[0;0;2;1];[0;0;3;0];[0;1;0;2];[0;1;1;1];[0;1;2;0];[0;2;0;1];[0;2;1;0];[0;3;0;0];[1;0;0;2];[1;0;1;1];[1;0;2;0];[1;1;0;1];[1;1;1;0];[1;2;0;0];[2;0;0;1];[2;0;1;0];[2;1;0;0];[3;0;0;0];[0;0;0;2];[0;0;1;1];[0;0;2;0];[0;1;0;1];[0;1;1;0];[0;2;0;0];[1;0;0;1];[1;0;1;0];[1;1;0;0];[2;0;0;0];[0;0;0;1];[0;0;1;0];[0;1;0;0];[1;0;0;0];[0;0;0;0]].
(** the entries init writes, src/absolute_pose/modules/gpnp4/init.cpp *)
Definition g4_keys : list (nat * nat) := [(0,22);(0,23);(0,24);(0,25);(0,26);(0,27);(0,28);(0,29);(0,30);(0,31);(0,32);(0,33);(0,34);(0,35);(0,36);(1,22);(1,23);(1,24);(1,25);(1,26);(1,27);(1,28);(1,29);(1,30);(1,31);(1,32);(1,33);(1,34);(1,35);(1,36);(2,22);(2,23);(2,24);(2,25);(2,26);(2,27);(2,28);(2,29);(2,30);(2,31);(2,32);(2,33);(2,34);(2,35);(2,36);(3,22);(3,23);(3,24);(3,25);(3,26);(3,27);(3,28);(3,29);(3,30);(3,31);(3,32);(3,33);(3,34);(3,35);(3,36);(4,22);(4,23);(4,24);(4,25);(4,26);(4,27);(4,28);(4,29);(4,30);(4,31);(4,32);(4,33);(4,34);(4,35);(4,36)].
(** sPolynomial5, src/absolute_pose/modules/gpnp4/spolynomials.cpp 36 *)
Definition g4_sPolynomial5 := GS 5 0 22 1 22 [(23,Some 23,Some 23);(24,Some 24,Some 24);(25,Some 25,Some 25);(26,Some 26,Some 26);(27,Some 27,Some 27);(28,Some 28,Some 28);(29,Some 29,Some 29);(30,Some 30,Some 30);(31,Some 31,Some 31);(32,Some 32,Some 32);(33,Some 33,Some 33);(34,Some 34,Some 34);(35,Some 35,Some 35);(36,Some 36,Some 36)].
(** sPolynomial6, src/absolute_pose/modules/gpnp4/spolynomials.cpp 55 *)
Definition g4_sPolynomial6 := GS 6 1 22 2 22 [(23,Some 23,Some 23);(24,Some 24,Some 24);(25,Some 25,Some 25);(26,Some 26,Some 26);(27,Some 27,Some 27);(28,Some 28,Some 28);(29,Some 29,Some 29);(30,Some 30,Some 30);(31,Some 31,Some 31);(32,Some 32,Some 32);(33,Some 33,Some 33);(34,Some 34,Some 34);(35,Some 35,Some 35);(36,Some 36,Some 36)].
(** sPolynomial7, src/absolute_pose/modules/gpnp4/spolynomials.cpp 74 *)
Definition g4_sPolynomial7 := GS 7 2 22 3 22 [(23,Some 23,Some 23);(24,Some 24,Some 24);(25,Some 25,Some 25);(26,Some 26,Some 26);(27,Some 27,Some 27);(28,Some 28,Some 28);(29,Some 29,Some 29);(30,Some 30,Some 30);(31,Some 31,Some 31);(32,Some 32,Some 32);(33,Some 33,Some 33);(34,Some 34,Some 34);(35,Some 35,Some 35);(36,Some 36,Some 36)].
(** sPolynomial8, src/absolute_pose/modules/gpnp4/spolynomials.cpp 93 *)
Definition g4_sPolynomial8 := GS 8 3 22 4 22 [(23,Some 23,Some 23);(24,Some 24,Some 24);(25,Some 25,Some 25);(26,Some 26,Some 26);(27,Some 27,Some 27);(28,Some 28,Some 28);(29,Some 29,Some 29);(30,Some 30,Some 30);(31,Some 31,Some 31);(32,Some 32,Some 32);(33,Some 33,Some 33);(34,Some 34,Some 34);(35,Some 35,Some 35);(36,Some 36,Some 36)].
(** sPolynomial9, src/absolute_pose/modules/gpnp4/spolynomials.cpp 112 *)
Definition g4_sPolynomial9 := GS 9 6 24 8 26 [(9,Some 25,None);(10,Some 26,Some 27);(11,Some 27,None);(13,None,Some 28);(14,None,Some 29);(15,Some 28,None);(16,Some 29,Some 30);(17,Some 30,None);(19,None,Some 31);(20,Some 31,None);(23,None,Some 32);(24,None,Some 33);(25,Some 32,None);(26,Some 33,Some 34);(27,Some 34,None);(29,None,Some 35);(30,Some 35,None);(33,None,Some 36);(34,Some 36,None)].
(** sPolynomial10, src/absolute_pose/modules/gpnp4/spolynomials.cpp 136 *)
Definition g4_sPolynomial10 := GS 10 5 23 7 25 [(8,Some 24,Some 26);(9,Some 25,None);(10,Some 26,Some 27);(11,Some 27,None);(13,None,Some 28);(14,None,Some 29);(15,Some 28,None);(16,Some 29,Some 30);(17,Some 30,None);(19,None,Some 31);(20,Some 31,None);(23,None,Some 32);(24,None,Some 33);(25,Some 32,None);(26,Some 33,Some 34);(27,Some 34,None);(29,None,Some 35);(30,Some 35,None);(33,None,Some 36);(34,Some 36,None)].
(** sPolynomial11, src/absolute_pose/modules/gpnp4/spolynomials.cpp 161 *)
Definition g4_sPolynomial11 := GS 11 5 23 8 26 [(8,Some 24,None);(9,Some 25,Some 27);(10,Some 26,None);(11,Some 27,None);(12,None,Some 28);(13,None,Some 29);(15,Some 28,Some 30);(16,Some 29,None);(17,Some 30,None);(18,None,Some 31);(20,Some 31,None);(22,None,Some 32);(23,None,Some 33);(25,Some 32,Some 34);(26,Some 33,None);(27,Some 34,None);(28,None,Some 35);(30,Some 35,None);(32,None,Some 36);(34,Some 36,None)].
(** sPolynomial12, src/absolute_pose/modules/gpnp4/spolynomials.cpp 186 *)
Definition g4_sPolynomial12 := GS 12 4 22 7 25 [(7,Some 23,Some 26);(8,Some 24,None);(9,Some 25,Some 27);(10,Some 26,None);(11,Some 27,None);(12,None,Some 28);(13,None,Some 29);(15,Some 28,Some 30);(16,Some 29,None);(17,Some 30,None);(18,None,Some 31);(20,Some 31,None);(22,None,Some 32);(23,None,Some 33);(25,Some 32,Some 34);(26,Some 33,None);(27,Some 34,None);(28,None,Some 35);(30,Some 35,None);(32,None,Some 36);(34,Some 36,None)].
(** sPolynomial13, src/absolute_pose/modules/gpnp4/spolynomials.cpp 212 *)
Definition g4_sPolynomial13 := GS 13 5 23 6 24 [(5,Some 24,None);(6,None,Some 25);(7,Some 25,Some 26);(8,Some 26,None);(9,None,Some 27);(10,Some 27,None);(12,None,Some 28);(13,Some 28,Some 29);(14,Some 29,None);(15,None,Some 30);(16,Some 30,None);(18,None,Some 31);(19,Some 31,None);(22,None,Some 32);(23,Some 32,Some 33);(24,Some 33,None);(25,None,Some 34);(26,Some 34,None);(28,None,Some 35);(29,Some 35,None);(32,None,Some 36);(33,Some 36,None)].
(** sPolynomial14, src/absolute_pose/modules/gpnp4/spolynomials.cpp 239 *)
Definition g4_sPolynomial14 := GS 14 4 22 5 23 [(4,Some 23,Some 24);(5,Some 24,None);(6,None,Some 25);(7,Some 25,Some 26);(8,Some 26,None);(9,None,Some 27);(10,Some 27,None);(12,None,Some 28);(13,Some 28,Some 29);(14,Some 29,None);(15,None,Some 30);(16,Some 30,None);(18,None,Some 31);(19,Some 31,None);(22,None,Some 32);(23,Some 32,Some 33);(24,Some 33,None);(25,None,Some 34);(26,Some 34,None);(28,None,Some 35);(29,Some 35,None);(32,None,Some 36);(33,Some 36,None)].
(** sPolynomial15, src/absolute_pose/modules/gpnp4/spolynomials.cpp 267 *)
Definition g4_sPolynomial15 := GS 15 13 20 14 21 [(3,Some 21,None);(11,None,Some 27);(15,None,Some 28);(16,None,Some 29);(17,Some 27,Some 30);(18,Some 28,None);(19,Some 29,None);(20,Some 30,Some 31);(21,Some 31,None);(25,None,Some 32);(26,None,Some 33);(27,None,Some 34);(28,Some 32,None);(29,Some 33,None);(30,Some 34,Some 35);(31,Some 35,None);(34,None,Some 36);(35,Some 36,None)].
(** sPolynomial16, src/absolute_pose/modules/gpnp4/spolynomials.cpp 290 *)
Definition g4_sPolynomial16 := GS 16 12 19 14 21 [(2,Some 20,None);(3,Some 21,None);(10,None,Some 27);(13,None,Some 28);(14,None,Some 29);(16,None,Some 30);(17,Some 27,None);(18,Some 28,None);(19,Some 29,Some 31);(20,Some 30,None);(21,Some 31,None);(23,None,Some 32);(24,None,Some 33);(26,None,Some 34);(28,Some 32,None);(29,Some 33,Some 35);(30,Some 34,None);(31,Some 35,None);(33,None,Some 36);(35,Some 36,None)].
(** sPolynomial17, src/absolute_pose/modules/gpnp4/spolynomials.cpp 315 *)
Definition g4_sPolynomial17 := GS 17 11 18 14 21 [(1,Some 19,None);(2,Some 20,None);(3,Some 21,None);(9,None,Some 27);(12,None,Some 28);(13,None,Some 29);(15,None,Some 30);(17,Some 27,None);(18,Some 28,Some 31);(19,Some 29,None);(20,Some 30,None);(21,Some 31,None);(22,None,Some 32);(23,None,Some 33);(25,None,Some 34);(28,Some 32,Some 35);(29,Some 33,None);(30,Some 34,None);(31,Some 35,None);(32,None,Some 36);(35,Some 36,None)].
(** sPolynomial18, src/absolute_pose/modules/gpnp4/spolynomials.cpp 341 *)
Definition g4_sPolynomial18 := GS 18 10 17 13 20 [(0,Some 18,None);(1,Some 19,None);(2,Some 20,Some 21);(3,Some 21,None);(11,None,Some 27);(15,None,Some 28);(16,None,Some 29);(17,Some 27,Some 30);(18,Some 28,None);(19,Some 29,None);(20,Some 30,Some 31);(21,Some 31,None);(25,None,Some 32);(26,None,Some 33);(27,None,Some 34);(28,Some 32,None);(29,Some 33,None);(30,Some 34,Some 35);(31,Some 35,None);(34,None,Some 36);(35,Some 36,None)].
(** sPolynomial19, src/absolute_pose/modules/gpnp4/spolynomials.cpp 367 *)
Definition g4_sPolynomial19 := GS 19 13 20 18 30 [(21,Some 21,Some 31);(27,Some 27,None);(28,Some 28,Some 32);(29,Some 29,Some 33);(30,Some 30,Some 34);(31,Some 31,Some 35);(32,Some 32,None);(33,Some 33,None);(34,Some 34,None);(35,Some 35,Some 36);(36,Some 36,None)].
(** sPolynomial20, src/absolute_pose/modules/gpnp4/spolynomials.cpp 383 *)
Definition g4_sPolynomial20 := GS 20 12 19 17 29 [(20,Some 20,Some 30);(21,Some 21,Some 31);(27,Some 27,None);(28,Some 28,Some 32);(29,Some 29,Some 33);(30,Some 30,Some 34);(31,Some 31,Some 35);(32,Some 32,None);(33,Some 33,None);(34,Some 34,None);(35,Some 35,Some 36);(36,Some 36,None)].
(** sPolynomial21, src/absolute_pose/modules/gpnp4/spolynomials.cpp 400 *)
Definition g4_sPolynomial21 := GS 21 11 18 16 28 [(19,Some 19,Some 29);(20,Some 20,Some 30);(21,Some 21,Some 31);(27,Some 27,None);(28,Some 28,Some 32);(29,Some 29,Some 33);(30,Some 30,Some 34);(31,Some 31,Some 35);(32,Some 32,None);(33,Some 33,None);(34,Some 34,None);(35,Some 35,Some 36);(36,Some 36,None)].
(** sPolynomial22, src/absolute_pose/modules/gpnp4/spolynomials.cpp 418 *)
Definition g4_sPolynomial22 := GS 22 10 17 15 27 [(18,Some 18,Some 28);(19,Some 19,Some 29);(20,Some 20,Some 30);(21,Some 21,Some 31);(27,Some 27,None);(28,Some 28,Some 32);(29,Some 29,Some 33);(30,Some 30,Some 34);(31,Some 31,Some 35);(32,Some 32,None);(33,Some 33,None);(34,Some 34,None);(35,Some 35,Some 36);(36,Some 36,None)].
(** sPolynomial23, src/absolute_pose/modules/gpnp4/spolynomials.cpp 437 *)
Definition g4_sPolynomial23 := GS 23 9 11 15 27 [(15,None,Some 28);(16,None,Some 29);(17,Some 17,Some 30);(18,Some 18,None);(19,Some 19,None);(20,Some 20,Some 31);(21,Some 21,None);(25,None,Some 32);(26,None,Some 33);(27,Some 27,Some 34);(28,Some 28,None);(29,Some 29,None);(30,Some 30,Some 35);(31,Some 31,None);(32,Some 32,None);(33,Some 33,None);(34,Some 34,Some 36);(35,Some 35,None);(36,Some 36,None)].
(** sPolynomial24, src/absolute_pose/modules/gpnp4/spolynomials.cpp 461 *)
Definition g4_sPolynomial24 := GS 24 19 31 23 35 [(32,Some 32,None);(33,Some 33,None);(34,Some 34,None);(35,Some 35,Some 36);(36,Some 36,None)].
(** groebnerRow5_0000_f, src/absolute_pose/modules/gpnp4/reductors.cpp 36 *)
Definition g4_groebnerRow5_0000_f t := GR t 5 23 23 [(24,24);(25,25);(26,26);(27,27);(28,28);(29,29);(30,30);(31,31);(32,32);(33,33);(34,34);(35,35);(36,36)].
(** groebnerRow6_0000_f, src/absolute_pose/modules/gpnp4/reductors.cpp 56 *)
Definition g4_groebnerRow6_0000_f t := GR t 6 24 24 [(25,25);(26,26);(27,27);(28,28);(29,29);(30,30);(31,31);(32,32);(33,33);(34,34);(35,35);(36,36)].
(** groebnerRow7_0000_f, src/absolute_pose/modules/gpnp4/reductors.cpp 75 *)
Definition g4_groebnerRow7_0000_f t := GR t 7 25 25 [(26,26);(27,27);(28,28);(29,29);(30,30);(31,31);(32,32);(33,33);(34,34);(35,35);(36,36)].
(** groebnerRow7_0100_f, src/absolute_pose/modules/gpnp4/reductors.cpp 93 *)
Definition g4_groebnerRow7_0100_f t := GR t 7 9 25 [(10,26);(11,27);(15,28);(16,29);(17,30);(20,31);(25,32);(26,33);(27,34);(30,35);(34,36)].
(** groebnerRow8_0100_f, src/absolute_pose/modules/gpnp4/reductors.cpp 111 *)
Definition g4_groebnerRow8_0100_f t := GR t 8 10 26 [(11,27);(15,28);(16,29);(17,30);(20,31);(25,32);(26,33);(27,34);(30,35);(34,36)].
(** groebnerRow5_1000_f, src/absolute_pose/modules/gpnp4/reductors.cpp 128 *)
Definition g4_groebnerRow5_1000_f t := GR t 5 13 23 [(14,24);(15,25);(16,26);(17,27);(18,28);(19,29);(20,30);(21,31);(28,32);(29,33);(30,34);(31,35);(35,36)].
(** groebnerRow6_1000_f, src/absolute_pose/modules/gpnp4/reductors.cpp 148 *)
Definition g4_groebnerRow6_1000_f t := GR t 6 14 24 [(15,25);(16,26);(17,27);(18,28);(19,29);(20,30);(21,31);(28,32);(29,33);(30,34);(31,35);(35,36)].
(** groebnerRow7_1000_f, src/absolute_pose/modules/gpnp4/reductors.cpp 167 *)
Definition g4_groebnerRow7_1000_f t := GR t 7 15 25 [(16,26);(17,27);(18,28);(19,29);(20,30);(21,31);(28,32);(29,33);(30,34);(31,35);(35,36)].
(** groebnerRow8_1000_f, src/absolute_pose/modules/gpnp4/reductors.cpp 185 *)
Definition g4_groebnerRow8_1000_f t := GR t 8 16 26 [(17,27);(18,28);(19,29);(20,30);(21,31);(28,32);(29,33);(30,34);(31,35);(35,36)].
(** groebnerRow8_0000_f, src/absolute_pose/modules/gpnp4/reductors.cpp 202 *)
Definition g4_groebnerRow8_0000_f t := GR t 8 26 26 [(27,27);(28,28);(29,29);(30,30);(31,31);(32,32);(33,33);(34,34);(35,35);(36,36)].
(** groebnerRow6_0100_f, src/absolute_pose/modules/gpnp4/reductors.cpp 219 *)
Definition g4_groebnerRow6_0100_f t := GR t 6 8 24 [(9,25);(10,26);(11,27);(15,28);(16,29);(17,30);(20,31);(25,32);(26,33);(27,34);(30,35);(34,36)].
(** groebnerRow9_0000_f, src/absolute_pose/modules/gpnp4/reductors.cpp 238 *)
Definition g4_groebnerRow9_0000_f t := GR t 9 11 11 [(17,17);(18,18);(19,19);(20,20);(21,21);(27,27);(28,28);(29,29);(30,30);(31,31);(32,32);(33,33);(34,34);(35,35);(36,36)].
(** groebnerRow4_1000_f, src/absolute_pose/modules/gpnp4/reductors.cpp 260 *)
Definition g4_groebnerRow4_1000_f t := GR t 4 12 22 [(13,23);(14,24);(15,25);(16,26);(17,27);(18,28);(19,29);(20,30);(21,31);(28,32);(29,33);(30,34);(31,35);(35,36)].
(** groebnerRow10_0000_f, src/absolute_pose/modules/gpnp4/reductors.cpp 281 *)
Definition g4_groebnerRow10_0000_f t := GR t 10 17 17 [(18,18);(19,19);(20,20);(21,21);(27,27);(28,28);(29,29);(30,30);(31,31);(32,32);(33,33);(34,34);(35,35);(36,36)].
(** groebnerRow4_0000_f, src/absolute_pose/modules/gpnp4/reductors.cpp 302 *)
Definition g4_groebnerRow4_0000_f t := GR t 4 22 22 [(23,23);(24,24);(25,25);(26,26);(27,27);(28,28);(29,29);(30,30);(31,31);(32,32);(33,33);(34,34);(35,35);(36,36)].
(** groebnerRow5_0100_f, src/absolute_pose/modules/gpnp4/reductors.cpp 323 *)
Definition g4_groebnerRow5_0100_f t := GR t 5 7 23 [(8,24);(9,25);(10,26);(11,27);(15,28);(16,29);(17,30);(20,31);(25,32);(26,33);(27,34);(30,35);(34,36)].
(** groebnerRow11_0000_f, src/absolute_pose/modules/gpnp4/reductors.cpp 343 *)
Definition g4_groebnerRow11_0000_f t := GR t 11 18 18 [(19,19);(20,20);(21,21);(27,27);(28,28);(29,29);(30,30);(31,31);(32,32);(33,33);(34,34);(35,35);(36,36)].
(** groebnerRow6_0010_f, src/absolute_pose/modules/gpnp4/reductors.cpp 363 *)
Definition g4_groebnerRow6_0010_f t := GR t 6 5 24 [(7,25);(8,26);(10,27);(13,28);(14,29);(16,30);(19,31);(23,32);(24,33);(26,34);(29,35);(33,36)].
(** groebnerRow4_0100_f, src/absolute_pose/modules/gpnp4/reductors.cpp 382 *)
Definition g4_groebnerRow4_0100_f t := GR t 4 6 22 [(7,23);(8,24);(9,25);(10,26);(11,27);(15,28);(16,29);(17,30);(20,31);(25,32);(26,33);(27,34);(30,35);(34,36)].
(** groebnerRow12_0000_f, src/absolute_pose/modules/gpnp4/reductors.cpp 403 *)
Definition g4_groebnerRow12_0000_f t := GR t 12 19 19 [(20,20);(21,21);(27,27);(28,28);(29,29);(30,30);(31,31);(32,32);(33,33);(34,34);(35,35);(36,36)].
(** groebnerRow5_0010_f, src/absolute_pose/modules/gpnp4/reductors.cpp 422 *)
Definition g4_groebnerRow5_0010_f t := GR t 5 4 23 [(5,24);(7,25);(8,26);(10,27);(13,28);(14,29);(16,30);(19,31);(23,32);(24,33);(26,34);(29,35);(33,36)].
(** groebnerRow13_0000_f, src/absolute_pose/modules/gpnp4/reductors.cpp 442 *)
Definition g4_groebnerRow13_0000_f t := GR t 13 20 20 [(21,21);(27,27);(28,28);(29,29);(30,30);(31,31);(32,32);(33,33);(34,34);(35,35);(36,36)].
(** groebnerRow14_1000_f, src/absolute_pose/modules/gpnp4/reductors.cpp 460 *)
Definition g4_groebnerRow14_1000_f t := GR t 14 3 21 [(17,27);(18,28);(19,29);(20,30);(21,31);(28,32);(29,33);(30,34);(31,35);(35,36)].
(** groebnerRow14_0000_f, src/absolute_pose/modules/gpnp4/reductors.cpp 477 *)
Definition g4_groebnerRow14_0000_f t := GR t 14 21 21 [(27,27);(28,28);(29,29);(30,30);(31,31);(32,32);(33,33);(34,34);(35,35);(36,36)].
(** groebnerRow13_1000_f, src/absolute_pose/modules/gpnp4/reductors.cpp 494 *)
Definition g4_groebnerRow13_1000_f t := GR t 13 2 20 [(3,21);(17,27);(18,28);(19,29);(20,30);(21,31);(28,32);(29,33);(30,34);(31,35);(35,36)].
(** groebnerRow15_0100_f, src/absolute_pose/modules/gpnp4/reductors.cpp 512 *)
Definition g4_groebnerRow15_0100_f t := GR t 15 11 27 [(15,28);(16,29);(17,30);(20,31);(25,32);(26,33);(27,34);(30,35);(34,36)].
(** groebnerRow15_1000_f, src/absolute_pose/modules/gpnp4/reductors.cpp 528 *)
Definition g4_groebnerRow15_1000_f t := GR t 15 17 27 [(18,28);(19,29);(20,30);(21,31);(28,32);(29,33);(30,34);(31,35);(35,36)].
(** groebnerRow15_0000_f, src/absolute_pose/modules/gpnp4/reductors.cpp 544 *)
Definition g4_groebnerRow15_0000_f t := GR t 15 27 27 [(28,28);(29,29);(30,30);(31,31);(32,32);(33,33);(34,34);(35,35);(36,36)].
(** groebnerRow12_1000_f, src/absolute_pose/modules/gpnp4/reductors.cpp 560 *)
Definition g4_groebnerRow12_1000_f t := GR t 12 1 19 [(2,20);(3,21);(17,27);(18,28);(19,29);(20,30);(21,31);(28,32);(29,33);(30,34);(31,35);(35,36)].
(** groebnerRow16_1000_f, src/absolute_pose/modules/gpnp4/reductors.cpp 579 *)
Definition g4_groebnerRow16_1000_f t := GR t 16 18 28 [(19,29);(20,30);(21,31);(28,32);(29,33);(30,34);(31,35);(35,36)].
(** groebnerRow16_0000_f, src/absolute_pose/modules/gpnp4/reductors.cpp 594 *)
Definition g4_groebnerRow16_0000_f t := GR t 16 28 28 [(29,29);(30,30);(31,31);(32,32);(33,33);(34,34);(35,35);(36,36)].
(** groebnerRow14_0001_f, src/absolute_pose/modules/gpnp4/reductors.cpp 609 *)
Definition g4_groebnerRow14_0001_f t := GR t 14 0 21 [(9,27);(12,28);(13,29);(15,30);(18,31);(22,32);(23,33);(25,34);(28,35);(32,36)].
(** groebnerRow14_0010_f, src/absolute_pose/modules/gpnp4/reductors.cpp 626 *)
Definition g4_groebnerRow14_0010_f t := GR t 14 1 21 [(10,27);(13,28);(14,29);(16,30);(19,31);(23,32);(24,33);(26,34);(29,35);(33,36)].
(** groebnerRow17_1000_f, src/absolute_pose/modules/gpnp4/reductors.cpp 643 *)
Definition g4_groebnerRow17_1000_f t := GR t 17 19 29 [(20,30);(21,31);(28,32);(29,33);(30,34);(31,35);(35,36)].
(** groebnerRow17_0000_f, src/absolute_pose/modules/gpnp4/reductors.cpp 657 *)
Definition g4_groebnerRow17_0000_f t := GR t 17 29 29 [(30,30);(31,31);(32,32);(33,33);(34,34);(35,35);(36,36)].
(** groebnerRow18_0000_f, src/absolute_pose/modules/gpnp4/reductors.cpp 671 *)
Definition g4_groebnerRow18_0000_f t := GR t 18 30 30 [(31,31);(32,32);(33,33);(34,34);(35,35);(36,36)].
(** groebnerRow18_1000_f, src/absolute_pose/modules/gpnp4/reductors.cpp 684 *)
Definition g4_groebnerRow18_1000_f t := GR t 18 20 30 [(21,31);(28,32);(29,33);(30,34);(31,35);(35,36)].
(** groebnerRow19_1000_f, src/absolute_pose/modules/gpnp4/reductors.cpp 697 *)
Definition g4_groebnerRow19_1000_f t := GR t 19 21 31 [(28,32);(29,33);(30,34);(31,35);(35,36)].
(** groebnerRow19_0000_f, src/absolute_pose/modules/gpnp4/reductors.cpp 709 *)
Definition g4_groebnerRow19_0000_f t := GR t 19 31 31 [(32,32);(33,33);(34,34);(35,35);(36,36)].
(** groebnerRow20_1000_f, src/absolute_pose/modules/gpnp4/reductors.cpp 721 *)
Definition g4_groebnerRow20_1000_f t := GR t 20 28 32 [(29,33);(30,34);(31,35);(35,36)].
(** groebnerRow20_0000_f, src/absolute_pose/modules/gpnp4/reductors.cpp 732 *)
Definition g4_groebnerRow20_0000_f t := GR t 20 32 32 [(33,33);(34,34);(35,35);(36,36)].
(** groebnerRow19_0001_f, src/absolute_pose/modules/gpnp4/reductors.cpp 743 *)
Definition g4_groebnerRow19_0001_f t := GR t 19 18 31 [(22,32);(23,33);(25,34);(28,35);(32,36)].
(** groebnerRow19_0010_f, src/absolute_pose/modules/gpnp4/reductors.cpp 755 *)
Definition g4_groebnerRow19_0010_f t := GR t 19 19 31 [(23,32);(24,33);(26,34);(29,35);(33,36)].
(** groebnerRow20_0001_f, src/absolute_pose/modules/gpnp4/reductors.cpp 767 *)
Definition g4_groebnerRow20_0001_f t := GR t 20 22 32 [(23,33);(25,34);(28,35);(32,36)].
(** groebnerRow20_0010_f, src/absolute_pose/modules/gpnp4/reductors.cpp 778 *)
Definition g4_groebnerRow20_0010_f t := GR t 20 23 32 [(24,33);(26,34);(29,35);(33,36)].
(** groebnerRow21_0010_f, src/absolute_pose/modules/gpnp4/reductors.cpp 789 *)
Definition g4_groebnerRow21_0010_f t := GR t 21 24 33 [(26,34);(29,35);(33,36)].
(** groebnerRow20_0100_f, src/absolute_pose/modules/gpnp4/reductors.cpp 799 *)
Definition g4_groebnerRow20_0100_f t := GR t 20 25 32 [(26,33);(27,34);(30,35);(34,36)].
(** groebnerRow21_0100_f, src/absolute_pose/modules/gpnp4/reductors.cpp 810 *)
Definition g4_groebnerRow21_0100_f t := GR t 21 26 33 [(27,34);(30,35);(34,36)].
(** groebnerRow21_1000_f, src/absolute_pose/modules/gpnp4/reductors.cpp 820 *)
Definition g4_groebnerRow21_1000_f t := GR t 21 29 33 [(30,34);(31,35);(35,36)].
(** groebnerRow21_0000_f, src/absolute_pose/modules/gpnp4/reductors.cpp 830 *)
Definition g4_groebnerRow21_0000_f t := GR t 21 33 33 [(34,34);(35,35);(36,36)].
(** groebnerRow20_1100_f, src/absolute_pose/modules/gpnp4/reductors.cpp 840 *)
Definition g4_groebnerRow20_1100_f t := GR t 20 15 32 [(16,33);(17,34);(20,35);(30,36)].
(** groebnerRow21_1100_f, src/absolute_pose/modules/gpnp4/reductors.cpp 851 *)
Definition g4_groebnerRow21_1100_f t := GR t 21 16 33 [(17,34);(20,35);(30,36)].
(** groebnerRow22_1100_f, src/absolute_pose/modules/gpnp4/reductors.cpp 861 *)
Definition g4_groebnerRow22_1100_f t := GR t 22 17 34 [(20,35);(30,36)].
(** groebnerRow19_0100_f, src/absolute_pose/modules/gpnp4/reductors.cpp 870 *)
Definition g4_groebnerRow19_0100_f t := GR t 19 20 31 [(25,32);(26,33);(27,34);(30,35);(34,36)].
(** groebnerRow22_0100_f, src/absolute_pose/modules/gpnp4/reductors.cpp 882 *)
Definition g4_groebnerRow22_0100_f t := GR t 22 27 34 [(30,35);(34,36)].
(** groebnerRow22_1000_f, src/absolute_pose/modules/gpnp4/reductors.cpp 891 *)
Definition g4_groebnerRow22_1000_f t := GR t 22 30 34 [(31,35);(35,36)].
(** groebnerRow22_0000_f, src/absolute_pose/modules/gpnp4/reductors.cpp 900 *)
Definition g4_groebnerRow22_0000_f t := GR t 22 34 34 [(35,35);(36,36)].
(** groebnerRow23_0000_f, src/absolute_pose/modules/gpnp4/reductors.cpp 909 *)
Definition g4_groebnerRow23_0000_f t := GR t 23 35 35 [(36,36)].
(** compute, src/absolute_pose/modules/gpnp4/code.cpp *)
Definition g4_compute : list gop := [
  g4_sPolynomial5;
  g4_sPolynomial6;
  g4_groebnerRow5_0000_f 6;
  g4_sPolynomial7;
  g4_groebnerRow5_0000_f 7;
  g4_groebnerRow6_0000_f 7;
  g4_sPolynomial8;
  g4_groebnerRow5_0000_f 8;
  g4_groebnerRow6_0000_f 8;
  g4_groebnerRow7_0000_f 8;
  g4_sPolynomial9;
  g4_groebnerRow7_0100_f 9;
  g4_groebnerRow8_0100_f 9;
  g4_groebnerRow5_1000_f 9;
  g4_groebnerRow6_1000_f 9;
  g4_groebnerRow7_1000_f 9;
  g4_groebnerRow8_1000_f 9;
  g4_groebnerRow5_0000_f 9;
  g4_groebnerRow6_0000_f 9;
  g4_groebnerRow7_0000_f 9;
  g4_groebnerRow8_0000_f 9;
  g4_sPolynomial10;
  g4_groebnerRow6_0100_f 10;
  g4_groebnerRow7_0100_f 10;
  g4_groebnerRow8_0100_f 10;
  g4_groebnerRow9_0000_f 10;
  g4_groebnerRow5_1000_f 10;
  g4_groebnerRow6_1000_f 10;
  g4_groebnerRow7_1000_f 10;
  g4_groebnerRow8_1000_f 10;
  g4_groebnerRow5_0000_f 10;
  g4_groebnerRow6_0000_f 10;
  g4_groebnerRow7_0000_f 10;
  g4_groebnerRow8_0000_f 10;
  g4_sPolynomial11;
  g4_groebnerRow6_0100_f 11;
  g4_groebnerRow7_0100_f 11;
  g4_groebnerRow8_0100_f 11;
  g4_groebnerRow9_0000_f 11;
  g4_groebnerRow4_1000_f 11;
  g4_groebnerRow5_1000_f 11;
  g4_groebnerRow6_1000_f 11;
  g4_groebnerRow7_1000_f 11;
  g4_groebnerRow8_1000_f 11;
  g4_groebnerRow10_0000_f 11;
  g4_groebnerRow4_0000_f 11;
  g4_groebnerRow5_0000_f 11;
  g4_groebnerRow6_0000_f 11;
  g4_groebnerRow7_0000_f 11;
  g4_groebnerRow8_0000_f 11;
  g4_sPolynomial12;
  g4_groebnerRow5_0100_f 12;
  g4_groebnerRow6_0100_f 12;
  g4_groebnerRow7_0100_f 12;
  g4_groebnerRow8_0100_f 12;
  g4_groebnerRow9_0000_f 12;
  g4_groebnerRow4_1000_f 12;
  g4_groebnerRow5_1000_f 12;
  g4_groebnerRow6_1000_f 12;
  g4_groebnerRow7_1000_f 12;
  g4_groebnerRow8_1000_f 12;
  g4_groebnerRow10_0000_f 12;
  g4_groebnerRow11_0000_f 12;
  g4_groebnerRow4_0000_f 12;
  g4_groebnerRow5_0000_f 12;
  g4_groebnerRow6_0000_f 12;
  g4_groebnerRow7_0000_f 12;
  g4_groebnerRow8_0000_f 12;
  g4_sPolynomial13;
  g4_groebnerRow6_0010_f 13;
  g4_groebnerRow4_0100_f 13;
  g4_groebnerRow5_0100_f 13;
  g4_groebnerRow6_0100_f 13;
  g4_groebnerRow7_0100_f 13;
  g4_groebnerRow8_0100_f 13;
  g4_groebnerRow9_0000_f 13;
  g4_groebnerRow4_1000_f 13;
  g4_groebnerRow5_1000_f 13;
  g4_groebnerRow6_1000_f 13;
  g4_groebnerRow7_1000_f 13;
  g4_groebnerRow8_1000_f 13;
  g4_groebnerRow10_0000_f 13;
  g4_groebnerRow11_0000_f 13;
  g4_groebnerRow12_0000_f 13;
  g4_groebnerRow4_0000_f 13;
  g4_groebnerRow5_0000_f 13;
  g4_groebnerRow6_0000_f 13;
  g4_groebnerRow7_0000_f 13;
  g4_groebnerRow8_0000_f 13;
  g4_sPolynomial14;
  g4_groebnerRow5_0010_f 14;
  g4_groebnerRow6_0010_f 14;
  g4_groebnerRow4_0100_f 14;
  g4_groebnerRow5_0100_f 14;
  g4_groebnerRow6_0100_f 14;
  g4_groebnerRow7_0100_f 14;
  g4_groebnerRow8_0100_f 14;
  g4_groebnerRow9_0000_f 14;
  g4_groebnerRow4_1000_f 14;
  g4_groebnerRow5_1000_f 14;
  g4_groebnerRow6_1000_f 14;
  g4_groebnerRow7_1000_f 14;
  g4_groebnerRow8_1000_f 14;
  g4_groebnerRow10_0000_f 14;
  g4_groebnerRow11_0000_f 14;
  g4_groebnerRow12_0000_f 14;
  g4_groebnerRow13_0000_f 14;
  g4_groebnerRow4_0000_f 14;
  g4_groebnerRow5_0000_f 14;
  g4_groebnerRow6_0000_f 14;
  g4_groebnerRow7_0000_f 14;
  g4_groebnerRow8_0000_f 14;
  g4_sPolynomial15;
  g4_groebnerRow14_1000_f 15;
  g4_groebnerRow9_0000_f 15;
  g4_groebnerRow7_1000_f 15;
  g4_groebnerRow8_1000_f 15;
  g4_groebnerRow10_0000_f 15;
  g4_groebnerRow11_0000_f 15;
  g4_groebnerRow12_0000_f 15;
  g4_groebnerRow13_0000_f 15;
  g4_groebnerRow14_0000_f 15;
  g4_groebnerRow7_0000_f 15;
  g4_groebnerRow8_0000_f 15;
  g4_sPolynomial16;
  g4_groebnerRow13_1000_f 16;
  g4_groebnerRow14_1000_f 16;
  g4_groebnerRow8_0100_f 16;
  g4_groebnerRow15_0100_f 16;
  g4_groebnerRow5_1000_f 16;
  g4_groebnerRow6_1000_f 16;
  g4_groebnerRow7_1000_f 16;
  g4_groebnerRow8_1000_f 16;
  g4_groebnerRow15_1000_f 16;
  g4_groebnerRow11_0000_f 16;
  g4_groebnerRow12_0000_f 16;
  g4_groebnerRow13_0000_f 16;
  g4_groebnerRow14_0000_f 16;
  g4_groebnerRow5_0000_f 16;
  g4_groebnerRow6_0000_f 16;
  g4_groebnerRow7_0000_f 16;
  g4_groebnerRow8_0000_f 16;
  g4_groebnerRow15_0000_f 16;
  g4_sPolynomial17;
  g4_groebnerRow12_1000_f 17;
  g4_groebnerRow13_1000_f 17;
  g4_groebnerRow14_1000_f 17;
  g4_groebnerRow7_0100_f 17;
  g4_groebnerRow8_0100_f 17;
  g4_groebnerRow15_0100_f 17;
  g4_groebnerRow4_1000_f 17;
  g4_groebnerRow5_1000_f 17;
  g4_groebnerRow6_1000_f 17;
  g4_groebnerRow7_1000_f 17;
  g4_groebnerRow8_1000_f 17;
  g4_groebnerRow15_1000_f 17;
  g4_groebnerRow16_1000_f 17;
  g4_groebnerRow12_0000_f 17;
  g4_groebnerRow13_0000_f 17;
  g4_groebnerRow14_0000_f 17;
  g4_groebnerRow4_0000_f 17;
  g4_groebnerRow5_0000_f 17;
  g4_groebnerRow6_0000_f 17;
  g4_groebnerRow7_0000_f 17;
  g4_groebnerRow8_0000_f 17;
  g4_groebnerRow15_0000_f 17;
  g4_groebnerRow16_0000_f 17;
  g4_sPolynomial18;
  g4_groebnerRow14_0001_f 18;
  g4_groebnerRow14_0010_f 18;
  g4_groebnerRow13_1000_f 18;
  g4_groebnerRow14_1000_f 18;
  g4_groebnerRow7_0100_f 18;
  g4_groebnerRow8_0100_f 18;
  g4_groebnerRow15_0100_f 18;
  g4_groebnerRow4_1000_f 18;
  g4_groebnerRow5_1000_f 18;
  g4_groebnerRow6_1000_f 18;
  g4_groebnerRow7_1000_f 18;
  g4_groebnerRow8_1000_f 18;
  g4_groebnerRow15_1000_f 18;
  g4_groebnerRow16_1000_f 18;
  g4_groebnerRow17_1000_f 18;
  g4_groebnerRow13_0000_f 18;
  g4_groebnerRow14_0000_f 18;
  g4_groebnerRow4_0000_f 18;
  g4_groebnerRow5_0000_f 18;
  g4_groebnerRow6_0000_f 18;
  g4_groebnerRow7_0000_f 18;
  g4_groebnerRow8_0000_f 18;
  g4_groebnerRow15_0000_f 18;
  g4_groebnerRow16_0000_f 18;
  g4_groebnerRow17_0000_f 18;
  g4_sPolynomial19;
  g4_groebnerRow14_0000_f 19;
  g4_groebnerRow15_0000_f 19;
  g4_groebnerRow16_0000_f 19;
  g4_groebnerRow17_0000_f 19;
  g4_groebnerRow18_0000_f 19;
  g4_sPolynomial20;
  g4_groebnerRow18_1000_f 20;
  g4_groebnerRow19_1000_f 20;
  g4_groebnerRow15_0000_f 20;
  g4_groebnerRow16_0000_f 20;
  g4_groebnerRow17_0000_f 20;
  g4_groebnerRow18_0000_f 20;
  g4_groebnerRow19_0000_f 20;
  g4_sPolynomial21;
  g4_groebnerRow17_1000_f 21;
  g4_groebnerRow18_1000_f 21;
  g4_groebnerRow19_1000_f 21;
  g4_groebnerRow15_0000_f 21;
  g4_groebnerRow20_1000_f 21;
  g4_groebnerRow17_0000_f 21;
  g4_groebnerRow18_0000_f 21;
  g4_groebnerRow19_0000_f 21;
  g4_groebnerRow20_0000_f 21;
  g4_sPolynomial22;
  g4_groebnerRow19_0001_f 22;
  g4_groebnerRow19_0010_f 22;
  g4_groebnerRow18_1000_f 22;
  g4_groebnerRow19_1000_f 22;
  g4_groebnerRow20_0001_f 22;
  g4_groebnerRow20_0010_f 22;
  g4_groebnerRow21_0010_f 22;
  g4_groebnerRow20_0100_f 22;
  g4_groebnerRow21_0100_f 22;
  g4_groebnerRow15_0000_f 22;
  g4_groebnerRow20_1000_f 22;
  g4_groebnerRow21_1000_f 22;
  g4_groebnerRow18_0000_f 22;
  g4_groebnerRow19_0000_f 22;
  g4_groebnerRow20_0000_f 22;
  g4_groebnerRow21_0000_f 22;
  g4_sPolynomial23;
  g4_groebnerRow20_1100_f 23;
  g4_groebnerRow21_1100_f 23;
  g4_groebnerRow22_1100_f 23;
  g4_groebnerRow19_0001_f 23;
  g4_groebnerRow19_0010_f 23;
  g4_groebnerRow19_0100_f 23;
  g4_groebnerRow19_1000_f 23;
  g4_groebnerRow20_0001_f 23;
  g4_groebnerRow20_0010_f 23;
  g4_groebnerRow21_0010_f 23;
  g4_groebnerRow20_0100_f 23;
  g4_groebnerRow21_0100_f 23;
  g4_groebnerRow22_0100_f 23;
  g4_groebnerRow20_1000_f 23;
  g4_groebnerRow21_1000_f 23;
  g4_groebnerRow22_1000_f 23;
  g4_groebnerRow19_0000_f 23;
  g4_groebnerRow20_0000_f 23;
  g4_groebnerRow21_0000_f 23;
  g4_groebnerRow22_0000_f 23;
  g4_sPolynomial24;
  g4_groebnerRow20_0000_f 24;
  g4_groebnerRow21_0000_f 24;
  g4_groebnerRow22_0000_f 24;
  g4_groebnerRow23_0000_f 24].

(** * gpnp5: 44 x 80 matrix, groebnerMatrix of src/absolute_pose/modules/gpnp5/ *)
Definition g5_rows := 44.
Definition g5_cols := 80.
(** exponents of the monomial of each column, src/absolute_pose/modules/gpnp5/ *)
Definition g5_mon : list (list nat) := [[0;3;1;0;0];[0;4;0;0;0];[1;1;0;1;1];[1;1;0;2;0];[1;1;1;0;1];[1;1;1;1;0];[1;1;2;0;0];[1;2;0;0;1];[1;2;0;1;0];[1;2;1;0;0];[1;3;0;0;0];[2;0;0;0;2];[2;0;0;1;1];[2;0;0;2;0];[2;0;1;0;1];[2;0;1;1;0];[2;0;2;0;0];[2;1;0;0;1];[2;1;0;1;0];[2;1;1;0;0];[2;2;0;0;0];[3;0;0;0;1];[3;0;0;1;0];[3;0;1;0;0];[3;1;0;0;0];[4;0;0;0;0];[0;0;0;2;1];[0;0;0;3;0];[0;0;1;0;2];[0;0;1;1;1];[0;0;1;2;0];[0;0;2;0;1];[0;0;2;1;0];[0;0;3;0;0];[0;1;0;0;2];[0;1;0;1;1];[0;1;0;2;0];[0;1;1;0;1];[0;1;1;1;0];[0;1;2;0;0];[0;2;0;0;1];[0;2;0;1;0];[0;2;1;0;0];[0;3;0;0;0];[1;0;0;0;2];[1;0;0;1;1];[1;0;0;2;0];[1;0;1;0;1];[1;0;1;1;0];[1;0;2;0;0];[1;1;0;0;1];[1;1;0;1;0];[1;1;1;0;0];[1;2;0;0;0];[2;0;0;0;1];[2;0;0;1;0];[2;0;1;0;0];[2;1;0;0;0];[3;0;0;0;0];[0;0;0;0;2];[0;0;0;1;1];[0;0;0;2;0];[0;0;1;0;1];[0;0;1;1;0];[0;0;2;0;0];[0;1;0;0;1];[0;1;0;1;0];[0;1;1;0;0];[0;2;0;0;0];[1;0;0;0;1];[1;0;0;1;0];[1;0;1;0;0];[1;1;0;0;0];[2;0;0;0;0];[0;0;0;0;1];[0;0;0;1;0];[0;0;1;0;0];[0;1;0;0;0];[1;0;0;0;0];[0;0;0;0;0]].
(** the entries init writes, src/absolute_pose/modules/gpnp5/init.cpp *)
Definition g5_keys : list (nat * nat) := [(0,59);(0,60);(0,61);(0,62);(0,63);(0,64);(0,65);(0,66);(0,67);(0,68);(0,69);(0,70);(0,71);(0,72);(0,73);(0,74);(0,75);(0,76);(0,77);(0,78);(0,79);(1,59);(1,60);(1,61);(1,62);(1,63);(1,64);(1,65);(1,66);(1,67);(1,68);(1,69);(1,70);(1,71);(1,72);(1,73);(1,74);(1,75);(1,76);(1,77);(1,78);(1,79);(2,59);(2,60);(2,61);(2,62);(2,63);(2,64);(2,65);(2,66);(2,67);(2,68);(2,69);(2,70);(2,71);(2,72);(2,73);(2,74);(2,75);(2,76);(2,77);(2,78);(2,79);(3,59);(3,60);(3,61);(3,62);(3,63);(3,64);(3,65);(3,66);(3,67);(3,68);(3,69);(3,70);(3,71);(3,72);(3,73);(3,74);(3,75);(3,76);(3,77);(3,78);(3,79);(4,59);(4,60);(4,61);(4,62);(4,63);(4,64);(4,65);(4,66);(4,67);(4,68);(4,69);(4,70);(4,71);(4,72);(4,73);(4,74);(4,75);(4,76);(4,77);(4,78);(4,79);(5,59);(5,60);(5,61);(5,62);(5,63);(5,64);(5,65);(5,66);(5,67);(5,68);(5,69);(5,70);(5,71);(5,72);(5,73);(5,74);(5,75);(5,76);(5,77);(5,78);(5,79)].
(** sPolynomial6, src/absolute_pose/modules/gpnp5/spolynomials.cpp 36 *)
Definition g5_sPolynomial6 := GS 6 0 59 1 59 [(60,Some 60,Some 60);(61,Some 61,Some 61);(62,Some 62,Some 62);(63,Some 63,Some 63);(64,Some 64,Some 64);(65,Some 65,Some 65);(66,Some 66,Some 66);(67,Some 67,Some 67);(68,Some 68,Some 68);(69,Some 69,Some 69);(70,Some 70,Some 70);(71,Some 71,Some 71);(72,Some 72,Some 72);(73,Some 73,Some 73);(74,Some 74,Some 74);(75,Some 75,Some 75);(76,Some 76,Some 76);(77,Some 77,Some 77);(78,Some 78,Some 78);(79,Some 79,Some 79)].
(** sPolynomial7, src/absolute_pose/modules/gpnp5/spolynomials.cpp 61 *)
Definition g5_sPolynomial7 := GS 7 1 59 2 59 [(60,Some 60,Some 60);(61,Some 61,Some 61);(62,Some 62,Some 62);(63,Some 63,Some 63);(64,Some 64,Some 64);(65,Some 65,Some 65);(66,Some 66,Some 66);(67,Some 67,Some 67);(68,Some 68,Some 68);(69,Some 69,Some 69);(70,Some 70,Some 70);(71,Some 71,Some 71);(72,Some 72,Some 72);(73,Some 73,Some 73);(74,Some 74,Some 74);(75,Some 75,Some 75);(76,Some 76,Some 76);(77,Some 77,Some 77);(78,Some 78,Some 78);(79,Some 79,Some 79)].
(** sPolynomial8, src/absolute_pose/modules/gpnp5/spolynomials.cpp 86 *)
Definition g5_sPolynomial8 := GS 8 2 59 3 59 [(60,Some 60,Some 60);(61,Some 61,Some 61);(62,Some 62,Some 62);(63,Some 63,Some 63);(64,Some 64,Some 64);(65,Some 65,Some 65);(66,Some 66,Some 66);(67,Some 67,Some 67);(68,Some 68,Some 68);(69,Some 69,Some 69);(70,Some 70,Some 70);(71,Some 71,Some 71);(72,Some 72,Some 72);(73,Some 73,Some 73);(74,Some 74,Some 74);(75,Some 75,Some 75);(76,Some 76,Some 76);(77,Some 77,Some 77);(78,Some 78,Some 78);(79,Some 79,Some 79)].
(** sPolynomial9, src/absolute_pose/modules/gpnp5/spolynomials.cpp 111 *)
Definition g5_sPolynomial9 := GS 9 3 59 4 59 [(60,Some 60,Some 60);(61,Some 61,Some 61);(62,Some 62,Some 62);(63,Some 63,Some 63);(64,Some 64,Some 64);(65,Some 65,Some 65);(66,Some 66,Some 66);(67,Some 67,Some 67);(68,Some 68,Some 68);(69,Some 69,Some 69);(70,Some 70,Some 70);(71,Some 71,Some 71);(72,Some 72,Some 72);(73,Some 73,Some 73);(74,Some 74,Some 74);(75,Some 75,Some 75);(76,Some 76,Some 76);(77,Some 77,Some 77);(78,Some 78,Some 78);(79,Some 79,Some 79)].
(** sPolynomial10, src/absolute_pose/modules/gpnp5/spolynomials.cpp 136 *)
Definition g5_sPolynomial10 := GS 10 4 59 5 59 [(60,Some 60,Some 60);(61,Some 61,Some 61);(62,Some 62,Some 62);(63,Some 63,Some 63);(64,Some 64,Some 64);(65,Some 65,Some 65);(66,Some 66,Some 66);(67,Some 67,Some 67);(68,Some 68,Some 68);(69,Some 69,Some 69);(70,Some 70,Some 70);(71,Some 71,Some 71);(72,Some 72,Some 72);(73,Some 73,Some 73);(74,Some 74,Some 74);(75,Some 75,Some 75);(76,Some 76,Some 76);(77,Some 77,Some 77);(78,Some 78,Some 78);(79,Some 79,Some 79)].
(** sPolynomial11, src/absolute_pose/modules/gpnp5/spolynomials.cpp 161 *)
Definition g5_sPolynomial11 := GS 11 9 63 10 64 [(33,Some 64,None);(35,None,Some 65);(36,None,Some 66);(37,Some 65,None);(38,Some 66,Some 67);(39,Some 67,None);(41,None,Some 68);(42,Some 68,None);(45,None,Some 69);(46,None,Some 70);(47,Some 69,None);(48,Some 70,Some 71);(49,Some 71,None);(51,None,Some 72);(52,Some 72,None);(55,None,Some 73);(56,Some 73,None);(60,None,Some 74);(61,None,Some 75);(62,Some 74,None);(63,Some 75,Some 76);(64,Some 76,None);(66,None,Some 77);(67,Some 77,None);(70,None,Some 78);(71,Some 78,None);(75,None,Some 79);(76,Some 79,None)].
(** sPolynomial12, src/absolute_pose/modules/gpnp5/spolynomials.cpp 194 *)
Definition g5_sPolynomial12 := GS 12 8 62 10 64 [(32,Some 63,None);(33,Some 64,None);(34,None,Some 65);(35,None,Some 66);(37,Some 65,Some 67);(38,Some 66,None);(39,Some 67,None);(40,None,Some 68);(42,Some 68,None);(44,None,Some 69);(45,None,Some 70);(47,Some 69,Some 71);(48,Some 70,None);(49,Some 71,None);(50,None,Some 72);(52,Some 72,None);(54,None,Some 73);(56,Some 73,None);(59,None,Some 74);(60,None,Some 75);(62,Some 74,Some 76);(63,Some 75,None);(64,Some 76,None);(65,None,Some 77);(67,Some 77,None);(69,None,Some 78);(71,Some 78,None);(74,None,Some 79);(76,Some 79,None)].
(** sPolynomial13, src/absolute_pose/modules/gpnp5/spolynomials.cpp 228 *)
Definition g5_sPolynomial13 := GS 13 7 61 9 63 [(31,Some 62,None);(32,Some 63,Some 64);(33,Some 64,None);(35,None,Some 65);(36,None,Some 66);(37,Some 65,None);(38,Some 66,Some 67);(39,Some 67,None);(41,None,Some 68);(42,Some 68,None);(45,None,Some 69);(46,None,Some 70);(47,Some 69,None);(48,Some 70,Some 71);(49,Some 71,None);(51,None,Some 72);(52,Some 72,None);(55,None,Some 73);(56,Some 73,None);(60,None,Some 74);(61,None,Some 75);(62,Some 74,None);(63,Some 75,Some 76);(64,Some 76,None);(66,None,Some 77);(67,Some 77,None);(70,None,Some 78);(71,Some 78,None);(75,None,Some 79);(76,Some 79,None)].
(** sPolynomial14, src/absolute_pose/modules/gpnp5/spolynomials.cpp 263 *)
Definition g5_sPolynomial14 := GS 14 6 60 8 62 [(30,Some 61,Some 63);(31,Some 62,None);(32,Some 63,Some 64);(33,Some 64,None);(35,None,Some 65);(36,None,Some 66);(37,Some 65,None);(38,Some 66,Some 67);(39,Some 67,None);(41,None,Some 68);(42,Some 68,None);(45,None,Some 69);(46,None,Some 70);(47,Some 69,None);(48,Some 70,Some 71);(49,Some 71,None);(51,None,Some 72);(52,Some 72,None);(55,None,Some 73);(56,Some 73,None);(60,None,Some 74);(61,None,Some 75);(62,Some 74,None);(63,Some 75,Some 76);(64,Some 76,None);(66,None,Some 77);(67,Some 77,None);(70,None,Some 78);(71,Some 78,None);(75,None,Some 79);(76,Some 79,None)].
(** sPolynomial15, src/absolute_pose/modules/gpnp5/spolynomials.cpp 299 *)
Definition g5_sPolynomial15 := GS 15 6 60 9 63 [(30,Some 61,None);(31,Some 62,Some 64);(32,Some 63,None);(33,Some 64,None);(34,None,Some 65);(35,None,Some 66);(37,Some 65,Some 67);(38,Some 66,None);(39,Some 67,None);(40,None,Some 68);(42,Some 68,None);(44,None,Some 69);(45,None,Some 70);(47,Some 69,Some 71);(48,Some 70,None);(49,Some 71,None);(50,None,Some 72);(52,Some 72,None);(54,None,Some 73);(56,Some 73,None);(59,None,Some 74);(60,None,Some 75);(62,Some 74,Some 76);(63,Some 75,None);(64,Some 76,None);(65,None,Some 77);(67,Some 77,None);(69,None,Some 78);(71,Some 78,None);(74,None,Some 79);(76,Some 79,None)].
(** sPolynomial16, src/absolute_pose/modules/gpnp5/spolynomials.cpp 335 *)
Definition g5_sPolynomial16 := GS 16 5 59 8 62 [(29,Some 60,Some 63);(30,Some 61,None);(31,Some 62,Some 64);(32,Some 63,None);(33,Some 64,None);(34,None,Some 65);(35,None,Some 66);(37,Some 65,Some 67);(38,Some 66,None);(39,Some 67,None);(40,None,Some 68);(42,Some 68,None);(44,None,Some 69);(45,None,Some 70);(47,Some 69,Some 71);(48,Some 70,None);(49,Some 71,None);(50,None,Some 72);(52,Some 72,None);(54,None,Some 73);(56,Some 73,None);(59,None,Some 74);(60,None,Some 75);(62,Some 74,Some 76);(63,Some 75,None);(64,Some 76,None);(65,None,Some 77);(67,Some 77,None);(69,None,Some 78);(71,Some 78,None);(74,None,Some 79);(76,Some 79,None)].
(** sPolynomial17, src/absolute_pose/modules/gpnp5/spolynomials.cpp 372 *)
Definition g5_sPolynomial17 := GS 17 6 60 7 61 [(27,Some 61,None);(28,None,Some 62);(29,Some 62,Some 63);(30,Some 63,None);(31,None,Some 64);(32,Some 64,None);(34,None,Some 65);(35,Some 65,Some 66);(36,Some 66,None);(37,None,Some 67);(38,Some 67,None);(40,None,Some 68);(41,Some 68,None);(44,None,Some 69);(45,Some 69,Some 70);(46,Some 70,None);(47,None,Some 71);(48,Some 71,None);(50,None,Some 72);(51,Some 72,None);(54,None,Some 73);(55,Some 73,None);(59,None,Some 74);(60,Some 74,Some 75);(61,Some 75,None);(62,None,Some 76);(63,Some 76,None);(65,None,Some 77);(66,Some 77,None);(69,None,Some 78);(70,Some 78,None);(74,None,Some 79);(75,Some 79,None)].
(** sPolynomial18, src/absolute_pose/modules/gpnp5/spolynomials.cpp 410 *)
Definition g5_sPolynomial18 := GS 18 5 59 6 60 [(26,Some 60,Some 61);(27,Some 61,None);(28,None,Some 62);(29,Some 62,Some 63);(30,Some 63,None);(31,None,Some 64);(32,Some 64,None);(34,None,Some 65);(35,Some 65,Some 66);(36,Some 66,None);(37,None,Some 67);(38,Some 67,None);(40,None,Some 68);(41,Some 68,None);(44,None,Some 69);(45,Some 69,Some 70);(46,Some 70,None);(47,None,Some 71);(48,Some 71,None);(50,None,Some 72);(51,Some 72,None);(54,None,Some 73);(55,Some 73,None);(59,None,Some 74);(60,Some 74,Some 75);(61,Some 75,None);(62,None,Some 76);(63,Some 76,None);(65,None,Some 77);(66,Some 77,None);(69,None,Some 78);(70,Some 78,None);(74,None,Some 79);(75,Some 79,None)].
(** sPolynomial19, src/absolute_pose/modules/gpnp5/spolynomials.cpp 449 *)
Definition g5_sPolynomial19 := GS 19 14 43 18 53 [(17,Some 50,Some 54);(18,Some 51,Some 55);(19,Some 52,Some 56);(20,Some 53,Some 57);(21,Some 54,None);(22,Some 55,None);(23,Some 56,None);(24,Some 57,Some 58);(25,Some 58,None);(40,None,Some 65);(41,None,Some 66);(42,None,Some 67);(43,None,Some 68);(50,Some 65,Some 69);(51,Some 66,Some 70);(52,Some 67,Some 71);(53,Some 68,Some 72);(54,Some 69,None);(55,Some 70,None);(56,Some 71,None);(57,Some 72,Some 73);(58,Some 73,None);(65,None,Some 74);(66,None,Some 75);(67,None,Some 76);(68,None,Some 77);(69,Some 74,None);(70,Some 75,None);(71,Some 76,None);(72,Some 77,Some 78);(73,Some 78,None);(77,None,Some 79);(78,Some 79,None)].
(** sPolynomial20, src/absolute_pose/modules/gpnp5/spolynomials.cpp 487 *)
Definition g5_sPolynomial20 := GS 20 13 42 17 52 [(10,Some 43,Some 53);(17,Some 50,Some 54);(18,Some 51,Some 55);(19,Some 52,Some 56);(20,Some 53,Some 57);(21,Some 54,None);(22,Some 55,None);(23,Some 56,None);(24,Some 57,Some 58);(25,Some 58,None);(40,None,Some 65);(41,None,Some 66);(42,None,Some 67);(43,None,Some 68);(50,Some 65,Some 69);(51,Some 66,Some 70);(52,Some 67,Some 71);(53,Some 68,Some 72);(54,Some 69,None);(55,Some 70,None);(56,Some 71,None);(57,Some 72,Some 73);(58,Some 73,None);(65,None,Some 74);(66,None,Some 75);(67,None,Some 76);(68,None,Some 77);(69,Some 74,None);(70,Some 75,None);(71,Some 76,None);(72,Some 77,Some 78);(73,Some 78,None);(77,None,Some 79);(78,Some 79,None)].
(** sPolynomial21, src/absolute_pose/modules/gpnp5/spolynomials.cpp 526 *)
Definition g5_sPolynomial21 := GS 21 13 42 18 53 [(10,Some 43,None);(14,None,Some 54);(15,None,Some 55);(16,None,Some 56);(17,Some 50,None);(18,Some 51,None);(19,Some 52,Some 57);(20,Some 53,None);(21,Some 54,None);(22,Some 55,None);(23,Some 56,Some 58);(24,Some 57,None);(25,Some 58,None);(37,None,Some 65);(38,None,Some 66);(39,None,Some 67);(42,None,Some 68);(47,None,Some 69);(48,None,Some 70);(49,None,Some 71);(50,Some 65,None);(51,Some 66,None);(52,Some 67,Some 72);(53,Some 68,None);(54,Some 69,None);(55,Some 70,None);(56,Some 71,Some 73);(57,Some 72,None);(58,Some 73,None);(62,None,Some 74);(63,None,Some 75);(64,None,Some 76);(67,None,Some 77);(69,Some 74,None);(70,Some 75,None);(71,Some 76,Some 78);(72,Some 77,None);(73,Some 78,None);(76,None,Some 79);(78,Some 79,None)].
(** sPolynomial22, src/absolute_pose/modules/gpnp5/spolynomials.cpp 571 *)
Definition g5_sPolynomial22 := GS 22 12 41 16 51 [(9,Some 42,Some 52);(10,Some 43,Some 53);(17,Some 50,Some 54);(18,Some 51,Some 55);(19,Some 52,Some 56);(20,Some 53,Some 57);(21,Some 54,None);(22,Some 55,None);(23,Some 56,None);(24,Some 57,Some 58);(25,Some 58,None);(40,None,Some 65);(41,None,Some 66);(42,None,Some 67);(43,None,Some 68);(50,Some 65,Some 69);(51,Some 66,Some 70);(52,Some 67,Some 71);(53,Some 68,Some 72);(54,Some 69,None);(55,Some 70,None);(56,Some 71,None);(57,Some 72,Some 73);(58,Some 73,None);(65,None,Some 74);(66,None,Some 75);(67,None,Some 76);(68,None,Some 77);(69,Some 74,None);(70,Some 75,None);(71,Some 76,None);(72,Some 77,Some 78);(73,Some 78,None);(77,None,Some 79);(78,Some 79,None)].
(** sPolynomial23, src/absolute_pose/modules/gpnp5/spolynomials.cpp 611 *)
Definition g5_sPolynomial23 := GS 23 12 41 18 53 [(9,Some 42,None);(10,Some 43,None);(12,None,Some 54);(13,None,Some 55);(15,None,Some 56);(17,Some 50,None);(18,Some 51,Some 57);(19,Some 52,None);(20,Some 53,None);(21,Some 54,None);(22,Some 55,Some 58);(23,Some 56,None);(24,Some 57,None);(25,Some 58,None);(35,None,Some 65);(36,None,Some 66);(38,None,Some 67);(41,None,Some 68);(45,None,Some 69);(46,None,Some 70);(48,None,Some 71);(50,Some 65,None);(51,Some 66,Some 72);(52,Some 67,None);(53,Some 68,None);(54,Some 69,None);(55,Some 70,Some 73);(56,Some 71,None);(57,Some 72,None);(58,Some 73,None);(60,None,Some 74);(61,None,Some 75);(63,None,Some 76);(66,None,Some 77);(69,Some 74,None);(70,Some 75,Some 78);(71,Some 76,None);(72,Some 77,None);(73,Some 78,None);(75,None,Some 79);(78,Some 79,None)].
(** sPolynomial24, src/absolute_pose/modules/gpnp5/spolynomials.cpp 657 *)
Definition g5_sPolynomial24 := GS 24 11 40 15 50 [(8,Some 41,Some 51);(9,Some 42,Some 52);(10,Some 43,Some 53);(17,Some 50,Some 54);(18,Some 51,Some 55);(19,Some 52,Some 56);(20,Some 53,Some 57);(21,Some 54,None);(22,Some 55,None);(23,Some 56,None);(24,Some 57,Some 58);(25,Some 58,None);(40,None,Some 65);(41,None,Some 66);(42,None,Some 67);(43,None,Some 68);(50,Some 65,Some 69);(51,Some 66,Some 70);(52,Some 67,Some 71);(53,Some 68,Some 72);(54,Some 69,None);(55,Some 70,None);(56,Some 71,None);(57,Some 72,Some 73);(58,Some 73,None);(65,None,Some 74);(66,None,Some 75);(67,None,Some 76);(68,None,Some 77);(69,Some 74,None);(70,Some 75,None);(71,Some 76,None);(72,Some 77,Some 78);(73,Some 78,None);(77,None,Some 79);(78,Some 79,None)].
(** sPolynomial25, src/absolute_pose/modules/gpnp5/spolynomials.cpp 698 *)
Definition g5_sPolynomial25 := GS 25 11 40 18 53 [(8,Some 41,None);(9,Some 42,None);(10,Some 43,None);(11,None,Some 54);(12,None,Some 55);(14,None,Some 56);(17,Some 50,Some 57);(18,Some 51,None);(19,Some 52,None);(20,Some 53,None);(21,Some 54,Some 58);(22,Some 55,None);(23,Some 56,None);(24,Some 57,None);(25,Some 58,None);(34,None,Some 65);(35,None,Some 66);(37,None,Some 67);(40,None,Some 68);(44,None,Some 69);(45,None,Some 70);(47,None,Some 71);(50,Some 65,Some 72);(51,Some 66,None);(52,Some 67,None);(53,Some 68,None);(54,Some 69,Some 73);(55,Some 70,None);(56,Some 71,None);(57,Some 72,None);(58,Some 73,None);(59,None,Some 74);(60,None,Some 75);(62,None,Some 76);(65,None,Some 77);(69,Some 74,Some 78);(70,Some 75,None);(71,Some 76,None);(72,Some 77,None);(73,Some 78,None);(74,None,Some 79);(78,Some 79,None)].
(** sPolynomial26, src/absolute_pose/modules/gpnp5/spolynomials.cpp 745 *)
Definition g5_sPolynomial26 := GS 26 10 64 17 52 [(7,Some 65,None);(8,Some 66,None);(9,Some 67,Some 53);(10,Some 68,None);(14,None,Some 54);(15,None,Some 55);(16,None,Some 56);(17,Some 69,None);(18,Some 70,None);(19,Some 71,Some 57);(20,Some 72,None);(23,None,Some 58);(24,Some 73,None);(37,None,Some 65);(38,None,Some 66);(39,None,Some 67);(42,None,Some 68);(47,None,Some 69);(48,None,Some 70);(49,None,Some 71);(50,Some 74,None);(51,Some 75,None);(52,Some 76,Some 72);(53,Some 77,None);(56,None,Some 73);(57,Some 78,None);(62,None,Some 74);(63,None,Some 75);(64,None,Some 76);(67,None,Some 77);(71,None,Some 78);(72,Some 79,None);(76,None,Some 79)].
(** sPolynomial27, src/absolute_pose/modules/gpnp5/spolynomials.cpp 783 *)
Definition g5_sPolynomial27 := GS 27 9 63 16 51 [(6,Some 64,Some 52);(7,Some 65,None);(8,Some 66,None);(9,Some 67,Some 53);(10,Some 68,None);(14,None,Some 54);(15,None,Some 55);(16,None,Some 56);(17,Some 69,None);(18,Some 70,None);(19,Some 71,Some 57);(20,Some 72,None);(23,None,Some 58);(24,Some 73,None);(37,None,Some 65);(38,None,Some 66);(39,None,Some 67);(42,None,Some 68);(47,None,Some 69);(48,None,Some 70);(49,None,Some 71);(50,Some 74,None);(51,Some 75,None);(52,Some 76,Some 72);(53,Some 77,None);(56,None,Some 73);(57,Some 78,None);(62,None,Some 74);(63,None,Some 75);(64,None,Some 76);(67,None,Some 77);(71,None,Some 78);(72,Some 79,None);(76,None,Some 79)].
(** sPolynomial28, src/absolute_pose/modules/gpnp5/spolynomials.cpp 822 *)
Definition g5_sPolynomial28 := GS 28 9 63 17 52 [(6,Some 64,None);(7,Some 65,None);(8,Some 66,Some 53);(9,Some 67,None);(10,Some 68,None);(12,None,Some 54);(13,None,Some 55);(15,None,Some 56);(17,Some 69,None);(18,Some 70,Some 57);(19,Some 71,None);(20,Some 72,None);(22,None,Some 58);(24,Some 73,None);(35,None,Some 65);(36,None,Some 66);(38,None,Some 67);(41,None,Some 68);(45,None,Some 69);(46,None,Some 70);(48,None,Some 71);(50,Some 74,None);(51,Some 75,Some 72);(52,Some 76,None);(53,Some 77,None);(55,None,Some 73);(57,Some 78,None);(60,None,Some 74);(61,None,Some 75);(63,None,Some 76);(66,None,Some 77);(70,None,Some 78);(72,Some 79,None);(75,None,Some 79)].
(** sPolynomial29, src/absolute_pose/modules/gpnp5/spolynomials.cpp 861 *)
Definition g5_sPolynomial29 := GS 29 8 62 15 50 [(5,Some 63,Some 51);(6,Some 64,Some 52);(7,Some 65,None);(8,Some 66,None);(9,Some 67,Some 53);(10,Some 68,None);(14,None,Some 54);(15,None,Some 55);(16,None,Some 56);(17,Some 69,None);(18,Some 70,None);(19,Some 71,Some 57);(20,Some 72,None);(23,None,Some 58);(24,Some 73,None);(37,None,Some 65);(38,None,Some 66);(39,None,Some 67);(42,None,Some 68);(47,None,Some 69);(48,None,Some 70);(49,None,Some 71);(50,Some 74,None);(51,Some 75,None);(52,Some 76,Some 72);(53,Some 77,None);(56,None,Some 73);(57,Some 78,None);(62,None,Some 74);(63,None,Some 75);(64,None,Some 76);(67,None,Some 77);(71,None,Some 78);(72,Some 79,None);(76,None,Some 79)].
(** sPolynomial30, src/absolute_pose/modules/gpnp5/spolynomials.cpp 901 *)
Definition g5_sPolynomial30 := GS 30 8 62 17 52 [(5,Some 63,None);(6,Some 64,None);(7,Some 65,Some 53);(8,Some 66,None);(9,Some 67,None);(10,Some 68,None);(11,None,Some 54);(12,None,Some 55);(14,None,Some 56);(17,Some 69,Some 57);(18,Some 70,None);(19,Some 71,None);(20,Some 72,None);(21,None,Some 58);(24,Some 73,None);(34,None,Some 65);(35,None,Some 66);(37,None,Some 67);(40,None,Some 68);(44,None,Some 69);(45,None,Some 70);(47,None,Some 71);(50,Some 74,Some 72);(51,Some 75,None);(52,Some 76,None);(53,Some 77,None);(54,None,Some 73);(57,Some 78,None);(59,None,Some 74);(60,None,Some 75);(62,None,Some 76);(65,None,Some 77);(69,None,Some 78);(72,Some 79,None);(74,None,Some 79)].
(** sPolynomial31, src/absolute_pose/modules/gpnp5/spolynomials.cpp 941 *)
Definition g5_sPolynomial31 := GS 31 13 42 14 43 [(1,Some 43,None);(4,None,Some 50);(5,None,Some 51);(6,None,Some 52);(7,Some 50,None);(8,Some 51,None);(9,Some 52,Some 53);(10,Some 53,None);(14,None,Some 54);(15,None,Some 55);(16,None,Some 56);(17,Some 54,None);(18,Some 55,None);(19,Some 56,Some 57);(20,Some 57,None);(23,None,Some 58);(24,Some 58,None);(37,None,Some 65);(38,None,Some 66);(39,None,Some 67);(40,Some 65,None);(41,Some 66,None);(42,Some 67,Some 68);(43,Some 68,None);(47,None,Some 69);(48,None,Some 70);(49,None,Some 71);(50,Some 69,None);(51,Some 70,None);(52,Some 71,Some 72);(53,Some 72,None);(56,None,Some 73);(57,Some 73,None);(62,None,Some 74);(63,None,Some 75);(64,None,Some 76);(65,Some 74,None);(66,Some 75,None);(67,Some 76,Some 77);(68,Some 77,None);(71,None,Some 78);(72,Some 78,None);(76,None,Some 79);(77,Some 79,None)].
(** sPolynomial32, src/absolute_pose/modules/gpnp5/spolynomials.cpp 990 *)
Definition g5_sPolynomial32 := GS 32 12 41 14 43 [(0,Some 42,None);(1,Some 43,None);(2,None,Some 50);(3,None,Some 51);(5,None,Some 52);(7,Some 50,None);(8,Some 51,Some 53);(9,Some 52,None);(10,Some 53,None);(12,None,Some 54);(13,None,Some 55);(15,None,Some 56);(17,Some 54,None);(18,Some 55,Some 57);(19,Some 56,None);(20,Some 57,None);(22,None,Some 58);(24,Some 58,None);(35,None,Some 65);(36,None,Some 66);(38,None,Some 67);(40,Some 65,None);(41,Some 66,Some 68);(42,Some 67,None);(43,Some 68,None);(45,None,Some 69);(46,None,Some 70);(48,None,Some 71);(50,Some 69,None);(51,Some 70,Some 72);(52,Some 71,None);(53,Some 72,None);(55,None,Some 73);(57,Some 73,None);(60,None,Some 74);(61,None,Some 75);(63,None,Some 76);(65,Some 74,None);(66,Some 75,Some 77);(67,Some 76,None);(68,Some 77,None);(70,None,Some 78);(72,Some 78,None);(75,None,Some 79);(77,Some 79,None)].
(** sPolynomial33, src/absolute_pose/modules/gpnp5/spolynomials.cpp 1040 *)
Definition g5_sPolynomial33 := GS 33 18 53 32 68 [(54,Some 54,Some 69);(55,Some 55,Some 70);(56,Some 56,Some 71);(57,Some 57,Some 72);(58,Some 58,Some 73);(65,Some 65,None);(66,Some 66,None);(67,Some 67,None);(68,Some 68,None);(69,Some 69,Some 74);(70,Some 70,Some 75);(71,Some 71,Some 76);(72,Some 72,Some 77);(73,Some 73,Some 78);(74,Some 74,None);(75,Some 75,None);(76,Some 76,None);(77,Some 77,None);(78,Some 78,Some 79);(79,Some 79,None)].
(** sPolynomial34, src/absolute_pose/modules/gpnp5/spolynomials.cpp 1065 *)
Definition g5_sPolynomial34 := GS 34 17 52 31 67 [(53,Some 53,Some 68);(54,Some 54,Some 69);(55,Some 55,Some 70);(56,Some 56,Some 71);(57,Some 57,Some 72);(58,Some 58,Some 73);(65,Some 65,None);(66,Some 66,None);(67,Some 67,None);(68,Some 68,None);(69,Some 69,Some 74);(70,Some 70,Some 75);(71,Some 71,Some 76);(72,Some 72,Some 77);(73,Some 73,Some 78);(74,Some 74,None);(75,Some 75,None);(76,Some 76,None);(77,Some 77,None);(78,Some 78,Some 79);(79,Some 79,None)].
(** sPolynomial35, src/absolute_pose/modules/gpnp5/spolynomials.cpp 1091 *)
Definition g5_sPolynomial35 := GS 35 16 51 30 66 [(52,Some 52,Some 67);(53,Some 53,Some 68);(54,Some 54,Some 69);(55,Some 55,Some 70);(56,Some 56,Some 71);(57,Some 57,Some 72);(58,Some 58,Some 73);(65,Some 65,None);(66,Some 66,None);(67,Some 67,None);(68,Some 68,None);(69,Some 69,Some 74);(70,Some 70,Some 75);(71,Some 71,Some 76);(72,Some 72,Some 77);(73,Some 73,Some 78);(74,Some 74,None);(75,Some 75,None);(76,Some 76,None);(77,Some 77,None);(78,Some 78,Some 79);(79,Some 79,None)].
(** sPolynomial36, src/absolute_pose/modules/gpnp5/spolynomials.cpp 1118 *)
Definition g5_sPolynomial36 := GS 36 15 50 29 65 [(51,Some 51,Some 66);(52,Some 52,Some 67);(53,Some 53,Some 68);(54,Some 54,Some 69);(55,Some 55,Some 70);(56,Some 56,Some 71);(57,Some 57,Some 72);(58,Some 58,Some 73);(65,Some 65,None);(66,Some 66,None);(67,Some 67,None);(68,Some 68,None);(69,Some 69,Some 74);(70,Some 70,Some 75);(71,Some 71,Some 76);(72,Some 72,Some 77);(73,Some 73,Some 78);(74,Some 74,None);(75,Some 75,None);(76,Some 76,None);(77,Some 77,None);(78,Some 78,Some 79);(79,Some 79,None)].
(** sPolynomial37, src/absolute_pose/modules/gpnp5/spolynomials.cpp 1146 *)
Definition g5_sPolynomial37 := GS 37 14 43 32 68 [(50,Some 50,Some 69);(51,Some 51,Some 70);(52,Some 52,Some 71);(53,Some 53,Some 72);(54,Some 54,None);(55,Some 55,None);(56,Some 56,None);(57,Some 57,Some 73);(58,Some 58,None);(65,Some 65,Some 74);(66,Some 66,Some 75);(67,Some 67,Some 76);(68,Some 68,Some 77);(69,Some 69,None);(70,Some 70,None);(71,Some 71,None);(72,Some 72,Some 78);(73,Some 73,None);(74,Some 74,None);(75,Some 75,None);(76,Some 76,None);(77,Some 77,Some 79);(78,Some 78,None);(79,Some 79,None)].
(** sPolynomial38, src/absolute_pose/modules/gpnp5/spolynomials.cpp 1175 *)
Definition g5_sPolynomial38 := GS 38 13 42 31 67 [(43,Some 43,Some 68);(50,Some 50,Some 69);(51,Some 51,Some 70);(52,Some 52,Some 71);(53,Some 53,Some 72);(54,Some 54,None);(55,Some 55,None);(56,Some 56,None);(57,Some 57,Some 73);(58,Some 58,None);(65,Some 65,Some 74);(66,Some 66,Some 75);(67,Some 67,Some 76);(68,Some 68,Some 77);(69,Some 69,None);(70,Some 70,None);(71,Some 71,None);(72,Some 72,Some 78);(73,Some 73,None);(74,Some 74,None);(75,Some 75,None);(76,Some 76,None);(77,Some 77,Some 79);(78,Some 78,None);(79,Some 79,None)].
(** sPolynomial39, src/absolute_pose/modules/gpnp5/spolynomials.cpp 1205 *)
Definition g5_sPolynomial39 := GS 39 31 67 32 68 [(43,Some 68,None);(47,None,Some 69);(48,None,Some 70);(49,None,Some 71);(50,Some 69,None);(51,Some 70,None);(52,Some 71,Some 72);(53,Some 72,None);(56,None,Some 73);(57,Some 73,None);(62,None,Some 74);(63,None,Some 75);(64,None,Some 76);(65,Some 74,None);(66,Some 75,None);(67,Some 76,Some 77);(68,Some 77,None);(71,None,Some 78);(72,Some 78,None);(76,None,Some 79);(77,Some 79,None)].
(** sPolynomial40, src/absolute_pose/modules/gpnp5/spolynomials.cpp 1231 *)
Definition g5_sPolynomial40 := GS 40 12 41 30 66 [(42,Some 42,Some 67);(43,Some 43,Some 68);(50,Some 50,Some 69);(51,Some 51,Some 70);(52,Some 52,Some 71);(53,Some 53,Some 72);(54,Some 54,None);(55,Some 55,None);(56,Some 56,None);(57,Some 57,Some 73);(58,Some 58,None);(65,Some 65,Some 74);(66,Some 66,Some 75);(67,Some 67,Some 76);(68,Some 68,Some 77);(69,Some 69,None);(70,Some 70,None);(71,Some 71,None);(72,Some 72,Some 78);(73,Some 73,None);(74,Some 74,None);(75,Some 75,None);(76,Some 76,None);(77,Some 77,Some 79);(78,Some 78,None);(79,Some 79,None)].
(** sPolynomial41, src/absolute_pose/modules/gpnp5/spolynomials.cpp 1262 *)
Definition g5_sPolynomial41 := GS 41 30 66 32 68 [(42,Some 67,None);(43,Some 68,None);(45,None,Some 69);(46,None,Some 70);(48,None,Some 71);(50,Some 69,None);(51,Some 70,Some 72);(52,Some 71,None);(53,Some 72,None);(55,None,Some 73);(57,Some 73,None);(60,None,Some 74);(61,None,Some 75);(63,None,Some 76);(65,Some 74,None);(66,Some 75,Some 77);(67,Some 76,None);(68,Some 77,None);(70,None,Some 78);(72,Some 78,None);(75,None,Some 79);(77,Some 79,None)].
(** sPolynomial42, src/absolute_pose/modules/gpnp5/spolynomials.cpp 1289 *)
Definition g5_sPolynomial42 := GS 42 11 40 29 65 [(41,Some 41,Some 66);(42,Some 42,Some 67);(43,Some 43,Some 68);(50,Some 50,Some 69);(51,Some 51,Some 70);(52,Some 52,Some 71);(53,Some 53,Some 72);(54,Some 54,None);(55,Some 55,None);(56,Some 56,None);(57,Some 57,Some 73);(58,Some 58,None);(65,Some 65,Some 74);(66,Some 66,Some 75);(67,Some 67,Some 76);(68,Some 68,Some 77);(69,Some 69,None);(70,Some 70,None);(71,Some 71,None);(72,Some 72,Some 78);(73,Some 73,None);(74,Some 74,None);(75,Some 75,None);(76,Some 76,None);(77,Some 77,Some 79);(78,Some 78,None);(79,Some 79,None)].
(** sPolynomial43, src/absolute_pose/modules/gpnp5/spolynomials.cpp 1321 *)
Definition g5_sPolynomial43 := GS 43 23 25 28 58 [(50,None,Some 65);(51,None,Some 66);(52,None,Some 67);(53,None,Some 68);(54,Some 54,Some 69);(55,Some 55,Some 70);(56,Some 56,Some 71);(57,Some 57,Some 72);(58,Some 58,Some 73);(65,Some 65,None);(66,Some 66,None);(67,Some 67,None);(68,Some 68,None);(69,Some 69,Some 74);(70,Some 70,Some 75);(71,Some 71,Some 76);(72,Some 72,Some 77);(73,Some 73,Some 78);(74,Some 74,None);(75,Some 75,None);(76,Some 76,None);(77,Some 77,None);(78,Some 78,Some 79);(79,Some 79,None)].
(** groebnerRow6_00000_f, src/absolute_pose/modules/gpnp5/reductors.cpp 36 *)
Definition g5_groebnerRow6_00000_f t := GR t 6 60 60 [(61,61);(62,62);(63,63);(64,64);(65,65);(66,66);(67,67);(68,68);(69,69);(70,70);(71,71);(72,72);(73,73);(74,74);(75,75);(76,76);(77,77);(78,78);(79,79)].
(** groebnerRow7_00000_f, src/absolute_pose/modules/gpnp5/reductors.cpp 62 *)
Definition g5_groebnerRow7_00000_f t := GR t 7 61 61 [(62,62);(63,63);(64,64);(65,65);(66,66);(67,67);(68,68);(69,69);(70,70);(71,71);(72,72);(73,73);(74,74);(75,75);(76,76);(77,77);(78,78);(79,79)].
(** groebnerRow8_00000_f, src/absolute_pose/modules/gpnp5/reductors.cpp 87 *)
Definition g5_groebnerRow8_00000_f t := GR t 8 62 62 [(63,63);(64,64);(65,65);(66,66);(67,67);(68,68);(69,69);(70,70);(71,71);(72,72);(73,73);(74,74);(75,75);(76,76);(77,77);(78,78);(79,79)].
(** groebnerRow9_00000_f, src/absolute_pose/modules/gpnp5/reductors.cpp 111 *)
Definition g5_groebnerRow9_00000_f t := GR t 9 63 63 [(64,64);(65,65);(66,66);(67,67);(68,68);(69,69);(70,70);(71,71);(72,72);(73,73);(74,74);(75,75);(76,76);(77,77);(78,78);(79,79)].
(** groebnerRow10_00100_f, src/absolute_pose/modules/gpnp5/reductors.cpp 134 *)
Definition g5_groebnerRow10_00100_f t := GR t 10 33 64 [(37,65);(38,66);(39,67);(42,68);(47,69);(48,70);(49,71);(52,72);(56,73);(62,74);(63,75);(64,76);(67,77);(71,78);(76,79)].
(** groebnerRow6_01000_f, src/absolute_pose/modules/gpnp5/reductors.cpp 156 *)
Definition g5_groebnerRow6_01000_f t := GR t 6 35 60 [(36,61);(37,62);(38,63);(39,64);(40,65);(41,66);(42,67);(43,68);(50,69);(51,70);(52,71);(53,72);(57,73);(65,74);(66,75);(67,76);(68,77);(72,78);(77,79)].
(** groebnerRow7_01000_f, src/absolute_pose/modules/gpnp5/reductors.cpp 182 *)
Definition g5_groebnerRow7_01000_f t := GR t 7 36 61 [(37,62);(38,63);(39,64);(40,65);(41,66);(42,67);(43,68);(50,69);(51,70);(52,71);(53,72);(57,73);(65,74);(66,75);(67,76);(68,77);(72,78);(77,79)].
(** groebnerRow8_01000_f, src/absolute_pose/modules/gpnp5/reductors.cpp 207 *)
Definition g5_groebnerRow8_01000_f t := GR t 8 37 62 [(38,63);(39,64);(40,65);(41,66);(42,67);(43,68);(50,69);(51,70);(52,71);(53,72);(57,73);(65,74);(66,75);(67,76);(68,77);(72,78);(77,79)].
(** groebnerRow9_01000_f, src/absolute_pose/modules/gpnp5/reductors.cpp 231 *)
Definition g5_groebnerRow9_01000_f t := GR t 9 38 63 [(39,64);(40,65);(41,66);(42,67);(43,68);(50,69);(51,70);(52,71);(53,72);(57,73);(65,74);(66,75);(67,76);(68,77);(72,78);(77,79)].
(** groebnerRow10_01000_f, src/absolute_pose/modules/gpnp5/reductors.cpp 254 *)
Definition g5_groebnerRow10_01000_f t := GR t 10 39 64 [(40,65);(41,66);(42,67);(43,68);(50,69);(51,70);(52,71);(53,72);(57,73);(65,74);(66,75);(67,76);(68,77);(72,78);(77,79)].
(** groebnerRow6_10000_f, src/absolute_pose/modules/gpnp5/reductors.cpp 276 *)
Definition g5_groebnerRow6_10000_f t := GR t 6 45 60 [(46,61);(47,62);(48,63);(49,64);(50,65);(51,66);(52,67);(53,68);(54,69);(55,70);(56,71);(57,72);(58,73);(69,74);(70,75);(71,76);(72,77);(73,78);(78,79)].
(** groebnerRow7_10000_f, src/absolute_pose/modules/gpnp5/reductors.cpp 302 *)
Definition g5_groebnerRow7_10000_f t := GR t 7 46 61 [(47,62);(48,63);(49,64);(50,65);(51,66);(52,67);(53,68);(54,69);(55,70);(56,71);(57,72);(58,73);(69,74);(70,75);(71,76);(72,77);(73,78);(78,79)].
(** groebnerRow8_10000_f, src/absolute_pose/modules/gpnp5/reductors.cpp 327 *)
Definition g5_groebnerRow8_10000_f t := GR t 8 47 62 [(48,63);(49,64);(50,65);(51,66);(52,67);(53,68);(54,69);(55,70);(56,71);(57,72);(58,73);(69,74);(70,75);(71,76);(72,77);(73,78);(78,79)].
(** groebnerRow9_10000_f, src/absolute_pose/modules/gpnp5/reductors.cpp 351 *)
Definition g5_groebnerRow9_10000_f t := GR t 9 48 63 [(49,64);(50,65);(51,66);(52,67);(53,68);(54,69);(55,70);(56,71);(57,72);(58,73);(69,74);(70,75);(71,76);(72,77);(73,78);(78,79)].
(** groebnerRow10_10000_f, src/absolute_pose/modules/gpnp5/reductors.cpp 374 *)
Definition g5_groebnerRow10_10000_f t := GR t 10 49 64 [(50,65);(51,66);(52,67);(53,68);(54,69);(55,70);(56,71);(57,72);(58,73);(69,74);(70,75);(71,76);(72,77);(73,78);(78,79)].
(** groebnerRow10_00000_f, src/absolute_pose/modules/gpnp5/reductors.cpp 396 *)
Definition g5_groebnerRow10_00000_f t := GR t 10 64 64 [(65,65);(66,66);(67,67);(68,68);(69,69);(70,70);(71,71);(72,72);(73,73);(74,74);(75,75);(76,76);(77,77);(78,78);(79,79)].
(** groebnerRow9_00100_f, src/absolute_pose/modules/gpnp5/reductors.cpp 418 *)
Definition g5_groebnerRow9_00100_f t := GR t 9 32 63 [(33,64);(37,65);(38,66);(39,67);(42,68);(47,69);(48,70);(49,71);(52,72);(56,73);(62,74);(63,75);(64,76);(67,77);(71,78);(76,79)].
(** groebnerRow5_01000_f, src/absolute_pose/modules/gpnp5/reductors.cpp 441 *)
Definition g5_groebnerRow5_01000_f t := GR t 5 34 59 [(35,60);(36,61);(37,62);(38,63);(39,64);(40,65);(41,66);(42,67);(43,68);(50,69);(51,70);(52,71);(53,72);(57,73);(65,74);(66,75);(67,76);(68,77);(72,78);(77,79)].
(** groebnerRow11_00000_f, src/absolute_pose/modules/gpnp5/reductors.cpp 468 *)
Definition g5_groebnerRow11_00000_f t := GR t 11 40 40 [(41,41);(42,42);(43,43);(50,50);(51,51);(52,52);(53,53);(54,54);(55,55);(56,56);(57,57);(58,58);(65,65);(66,66);(67,67);(68,68);(69,69);(70,70);(71,71);(72,72);(73,73);(74,74);(75,75);(76,76);(77,77);(78,78);(79,79)].
(** groebnerRow5_10000_f, src/absolute_pose/modules/gpnp5/reductors.cpp 502 *)
Definition g5_groebnerRow5_10000_f t := GR t 5 44 59 [(45,60);(46,61);(47,62);(48,63);(49,64);(50,65);(51,66);(52,67);(53,68);(54,69);(55,70);(56,71);(57,72);(58,73);(69,74);(70,75);(71,76);(72,77);(73,78);(78,79)].
(** groebnerRow5_00000_f, src/absolute_pose/modules/gpnp5/reductors.cpp 529 *)
Definition g5_groebnerRow5_00000_f t := GR t 5 59 59 [(60,60);(61,61);(62,62);(63,63);(64,64);(65,65);(66,66);(67,67);(68,68);(69,69);(70,70);(71,71);(72,72);(73,73);(74,74);(75,75);(76,76);(77,77);(78,78);(79,79)].
(** groebnerRow8_00100_f, src/absolute_pose/modules/gpnp5/reductors.cpp 556 *)
Definition g5_groebnerRow8_00100_f t := GR t 8 31 62 [(32,63);(33,64);(37,65);(38,66);(39,67);(42,68);(47,69);(48,70);(49,71);(52,72);(56,73);(62,74);(63,75);(64,76);(67,77);(71,78);(76,79)].
(** groebnerRow12_00000_f, src/absolute_pose/modules/gpnp5/reductors.cpp 580 *)
Definition g5_groebnerRow12_00000_f t := GR t 12 41 41 [(42,42);(43,43);(50,50);(51,51);(52,52);(53,53);(54,54);(55,55);(56,56);(57,57);(58,58);(65,65);(66,66);(67,67);(68,68);(69,69);(70,70);(71,71);(72,72);(73,73);(74,74);(75,75);(76,76);(77,77);(78,78);(79,79)].
(** groebnerRow7_00100_f, src/absolute_pose/modules/gpnp5/reductors.cpp 613 *)
Definition g5_groebnerRow7_00100_f t := GR t 7 30 61 [(31,62);(32,63);(33,64);(37,65);(38,66);(39,67);(42,68);(47,69);(48,70);(49,71);(52,72);(56,73);(62,74);(63,75);(64,76);(67,77);(71,78);(76,79)].
(** groebnerRow13_00000_f, src/absolute_pose/modules/gpnp5/reductors.cpp 638 *)
Definition g5_groebnerRow13_00000_f t := GR t 13 42 42 [(43,43);(50,50);(51,51);(52,52);(53,53);(54,54);(55,55);(56,56);(57,57);(58,58);(65,65);(66,66);(67,67);(68,68);(69,69);(70,70);(71,71);(72,72);(73,73);(74,74);(75,75);(76,76);(77,77);(78,78);(79,79)].
(** groebnerRow14_00000_f, src/absolute_pose/modules/gpnp5/reductors.cpp 670 *)
Definition g5_groebnerRow14_00000_f t := GR t 14 43 43 [(50,50);(51,51);(52,52);(53,53);(54,54);(55,55);(56,56);(57,57);(58,58);(65,65);(66,66);(67,67);(68,68);(69,69);(70,70);(71,71);(72,72);(73,73);(74,74);(75,75);(76,76);(77,77);(78,78);(79,79)].
(** groebnerRow6_00100_f, src/absolute_pose/modules/gpnp5/reductors.cpp 701 *)
Definition g5_groebnerRow6_00100_f t := GR t 6 29 60 [(30,61);(31,62);(32,63);(33,64);(37,65);(38,66);(39,67);(42,68);(47,69);(48,70);(49,71);(52,72);(56,73);(62,74);(63,75);(64,76);(67,77);(71,78);(76,79)].
(** groebnerRow15_00000_f, src/absolute_pose/modules/gpnp5/reductors.cpp 727 *)
Definition g5_groebnerRow15_00000_f t := GR t 15 50 50 [(51,51);(52,52);(53,53);(54,54);(55,55);(56,56);(57,57);(58,58);(65,65);(66,66);(67,67);(68,68);(69,69);(70,70);(71,71);(72,72);(73,73);(74,74);(75,75);(76,76);(77,77);(78,78);(79,79)].
(** groebnerRow7_00010_f, src/absolute_pose/modules/gpnp5/reductors.cpp 757 *)
Definition g5_groebnerRow7_00010_f t := GR t 7 27 61 [(29,62);(30,63);(32,64);(35,65);(36,66);(38,67);(41,68);(45,69);(46,70);(48,71);(51,72);(55,73);(60,74);(61,75);(63,76);(66,77);(70,78);(75,79)].
(** groebnerRow5_00100_f, src/absolute_pose/modules/gpnp5/reductors.cpp 782 *)
Definition g5_groebnerRow5_00100_f t := GR t 5 28 59 [(29,60);(30,61);(31,62);(32,63);(33,64);(37,65);(38,66);(39,67);(42,68);(47,69);(48,70);(49,71);(52,72);(56,73);(62,74);(63,75);(64,76);(67,77);(71,78);(76,79)].
(** groebnerRow16_00000_f, src/absolute_pose/modules/gpnp5/reductors.cpp 809 *)
Definition g5_groebnerRow16_00000_f t := GR t 16 51 51 [(52,52);(53,53);(54,54);(55,55);(56,56);(57,57);(58,58);(65,65);(66,66);(67,67);(68,68);(69,69);(70,70);(71,71);(72,72);(73,73);(74,74);(75,75);(76,76);(77,77);(78,78);(79,79)].
(** groebnerRow6_00010_f, src/absolute_pose/modules/gpnp5/reductors.cpp 838 *)
Definition g5_groebnerRow6_00010_f t := GR t 6 26 60 [(27,61);(29,62);(30,63);(32,64);(35,65);(36,66);(38,67);(41,68);(45,69);(46,70);(48,71);(51,72);(55,73);(60,74);(61,75);(63,76);(66,77);(70,78);(75,79)].
(** groebnerRow17_00000_f, src/absolute_pose/modules/gpnp5/reductors.cpp 864 *)
Definition g5_groebnerRow17_00000_f t := GR t 17 52 52 [(53,53);(54,54);(55,55);(56,56);(57,57);(58,58);(65,65);(66,66);(67,67);(68,68);(69,69);(70,70);(71,71);(72,72);(73,73);(74,74);(75,75);(76,76);(77,77);(78,78);(79,79)].
(** groebnerRow15_10000_f, src/absolute_pose/modules/gpnp5/reductors.cpp 892 *)
Definition g5_groebnerRow15_10000_f t := GR t 15 17 50 [(18,51);(19,52);(20,53);(21,54);(22,55);(23,56);(24,57);(25,58);(50,65);(51,66);(52,67);(53,68);(54,69);(55,70);(56,71);(57,72);(58,73);(69,74);(70,75);(71,76);(72,77);(73,78);(78,79)].
(** groebnerRow16_10000_f, src/absolute_pose/modules/gpnp5/reductors.cpp 922 *)
Definition g5_groebnerRow16_10000_f t := GR t 16 18 51 [(19,52);(20,53);(21,54);(22,55);(23,56);(24,57);(25,58);(50,65);(51,66);(52,67);(53,68);(54,69);(55,70);(56,71);(57,72);(58,73);(69,74);(70,75);(71,76);(72,77);(73,78);(78,79)].
(** groebnerRow17_10000_f, src/absolute_pose/modules/gpnp5/reductors.cpp 951 *)
Definition g5_groebnerRow17_10000_f t := GR t 17 19 52 [(20,53);(21,54);(22,55);(23,56);(24,57);(25,58);(50,65);(51,66);(52,67);(53,68);(54,69);(55,70);(56,71);(57,72);(58,73);(69,74);(70,75);(71,76);(72,77);(73,78);(78,79)].
(** groebnerRow18_10000_f, src/absolute_pose/modules/gpnp5/reductors.cpp 979 *)
Definition g5_groebnerRow18_10000_f t := GR t 18 20 53 [(21,54);(22,55);(23,56);(24,57);(25,58);(50,65);(51,66);(52,67);(53,68);(54,69);(55,70);(56,71);(57,72);(58,73);(69,74);(70,75);(71,76);(72,77);(73,78);(78,79)].
(** groebnerRow18_00000_f, src/absolute_pose/modules/gpnp5/reductors.cpp 1006 *)
Definition g5_groebnerRow18_00000_f t := GR t 18 53 53 [(54,54);(55,55);(56,56);(57,57);(58,58);(65,65);(66,66);(67,67);(68,68);(69,69);(70,70);(71,71);(72,72);(73,73);(74,74);(75,75);(76,76);(77,77);(78,78);(79,79)].
(** groebnerRow14_10000_f, src/absolute_pose/modules/gpnp5/reductors.cpp 1033 *)
Definition g5_groebnerRow14_10000_f t := GR t 14 10 43 [(17,50);(18,51);(19,52);(20,53);(21,54);(22,55);(23,56);(24,57);(25,58);(50,65);(51,66);(52,67);(53,68);(54,69);(55,70);(56,71);(57,72);(58,73);(69,74);(70,75);(71,76);(72,77);(73,78);(78,79)].
(** groebnerRow19_00000_f, src/absolute_pose/modules/gpnp5/reductors.cpp 1064 *)
Definition g5_groebnerRow19_00000_f t := GR t 19 21 21 [(22,22);(23,23);(24,24);(25,25);(54,54);(55,55);(56,56);(57,57);(58,58);(65,65);(66,66);(67,67);(68,68);(69,69);(70,70);(71,71);(72,72);(73,73);(74,74);(75,75);(76,76);(77,77);(78,78);(79,79)].
(** groebnerRow8_20000_f, src/absolute_pose/modules/gpnp5/reductors.cpp 1095 *)
Definition g5_groebnerRow8_20000_f t := GR t 8 14 62 [(15,63);(16,64);(17,65);(18,66);(19,67);(20,68);(21,69);(22,70);(23,71);(24,72);(25,73);(54,74);(55,75);(56,76);(57,77);(58,78);(73,79)].
(** groebnerRow9_20000_f, src/absolute_pose/modules/gpnp5/reductors.cpp 1119 *)
Definition g5_groebnerRow9_20000_f t := GR t 9 15 63 [(16,64);(17,65);(18,66);(19,67);(20,68);(21,69);(22,70);(23,71);(24,72);(25,73);(54,74);(55,75);(56,76);(57,77);(58,78);(73,79)].
(** groebnerRow10_20000_f, src/absolute_pose/modules/gpnp5/reductors.cpp 1142 *)
Definition g5_groebnerRow10_20000_f t := GR t 10 16 64 [(17,65);(18,66);(19,67);(20,68);(21,69);(22,70);(23,71);(24,72);(25,73);(54,74);(55,75);(56,76);(57,77);(58,78);(73,79)].
(** groebnerRow20_00000_f, src/absolute_pose/modules/gpnp5/reductors.cpp 1164 *)
Definition g5_groebnerRow20_00000_f t := GR t 20 22 22 [(23,23);(24,24);(25,25);(54,54);(55,55);(56,56);(57,57);(58,58);(65,65);(66,66);(67,67);(68,68);(69,69);(70,70);(71,71);(72,72);(73,73);(74,74);(75,75);(76,76);(77,77);(78,78);(79,79)].
(** groebnerRow13_10000_f, src/absolute_pose/modules/gpnp5/reductors.cpp 1194 *)
Definition g5_groebnerRow13_10000_f t := GR t 13 9 42 [(10,43);(17,50);(18,51);(19,52);(20,53);(21,54);(22,55);(23,56);(24,57);(25,58);(50,65);(51,66);(52,67);(53,68);(54,69);(55,70);(56,71);(57,72);(58,73);(69,74);(70,75);(71,76);(72,77);(73,78);(78,79)].
(** groebnerRow21_00000_f, src/absolute_pose/modules/gpnp5/reductors.cpp 1226 *)
Definition g5_groebnerRow21_00000_f t := GR t 21 23 23 [(24,24);(25,25);(54,54);(55,55);(56,56);(57,57);(58,58);(65,65);(66,66);(67,67);(68,68);(69,69);(70,70);(71,71);(72,72);(73,73);(74,74);(75,75);(76,76);(77,77);(78,78);(79,79)].
(** groebnerRow6_20000_f, src/absolute_pose/modules/gpnp5/reductors.cpp 1255 *)
Definition g5_groebnerRow6_20000_f t := GR t 6 12 60 [(13,61);(14,62);(15,63);(16,64);(17,65);(18,66);(19,67);(20,68);(21,69);(22,70);(23,71);(24,72);(25,73);(54,74);(55,75);(56,76);(57,77);(58,78);(73,79)].
(** groebnerRow7_20000_f, src/absolute_pose/modules/gpnp5/reductors.cpp 1281 *)
Definition g5_groebnerRow7_20000_f t := GR t 7 13 61 [(14,62);(15,63);(16,64);(17,65);(18,66);(19,67);(20,68);(21,69);(22,70);(23,71);(24,72);(25,73);(54,74);(55,75);(56,76);(57,77);(58,78);(73,79)].
(** groebnerRow22_00000_f, src/absolute_pose/modules/gpnp5/reductors.cpp 1306 *)
Definition g5_groebnerRow22_00000_f t := GR t 22 24 24 [(25,25);(54,54);(55,55);(56,56);(57,57);(58,58);(65,65);(66,66);(67,67);(68,68);(69,69);(70,70);(71,71);(72,72);(73,73);(74,74);(75,75);(76,76);(77,77);(78,78);(79,79)].
(** groebnerRow12_10000_f, src/absolute_pose/modules/gpnp5/reductors.cpp 1334 *)
Definition g5_groebnerRow12_10000_f t := GR t 12 8 41 [(9,42);(10,43);(17,50);(18,51);(19,52);(20,53);(21,54);(22,55);(23,56);(24,57);(25,58);(50,65);(51,66);(52,67);(53,68);(54,69);(55,70);(56,71);(57,72);(58,73);(69,74);(70,75);(71,76);(72,77);(73,78);(78,79)].
(** groebnerRow23_00000_f, src/absolute_pose/modules/gpnp5/reductors.cpp 1367 *)
Definition g5_groebnerRow23_00000_f t := GR t 23 25 25 [(54,54);(55,55);(56,56);(57,57);(58,58);(65,65);(66,66);(67,67);(68,68);(69,69);(70,70);(71,71);(72,72);(73,73);(74,74);(75,75);(76,76);(77,77);(78,78);(79,79)].
(** groebnerRow5_20000_f, src/absolute_pose/modules/gpnp5/reductors.cpp 1394 *)
Definition g5_groebnerRow5_20000_f t := GR t 5 11 59 [(12,60);(13,61);(14,62);(15,63);(16,64);(17,65);(18,66);(19,67);(20,68);(21,69);(22,70);(23,71);(24,72);(25,73);(54,74);(55,75);(56,76);(57,77);(58,78);(73,79)].
(** groebnerRow24_10000_f, src/absolute_pose/modules/gpnp5/reductors.cpp 1421 *)
Definition g5_groebnerRow24_10000_f t := GR t 24 21 54 [(22,55);(23,56);(24,57);(25,58);(50,65);(51,66);(52,67);(53,68);(54,69);(55,70);(56,71);(57,72);(58,73);(69,74);(70,75);(71,76);(72,77);(73,78);(78,79)].
(** groebnerRow24_00000_f, src/absolute_pose/modules/gpnp5/reductors.cpp 1447 *)
Definition g5_groebnerRow24_00000_f t := GR t 24 54 54 [(55,55);(56,56);(57,57);(58,58);(65,65);(66,66);(67,67);(68,68);(69,69);(70,70);(71,71);(72,72);(73,73);(74,74);(75,75);(76,76);(77,77);(78,78);(79,79)].
(** groebnerRow11_10000_f, src/absolute_pose/modules/gpnp5/reductors.cpp 1473 *)
Definition g5_groebnerRow11_10000_f t := GR t 11 7 40 [(8,41);(9,42);(10,43);(17,50);(18,51);(19,52);(20,53);(21,54);(22,55);(23,56);(24,57);(25,58);(50,65);(51,66);(52,67);(53,68);(54,69);(55,70);(56,71);(57,72);(58,73);(69,74);(70,75);(71,76);(72,77);(73,78);(78,79)].
(** groebnerRow25_10000_f, src/absolute_pose/modules/gpnp5/reductors.cpp 1507 *)
Definition g5_groebnerRow25_10000_f t := GR t 25 22 55 [(23,56);(24,57);(25,58);(50,65);(51,66);(52,67);(53,68);(54,69);(55,70);(56,71);(57,72);(58,73);(69,74);(70,75);(71,76);(72,77);(73,78);(78,79)].
(** groebnerRow25_00000_f, src/absolute_pose/modules/gpnp5/reductors.cpp 1532 *)
Definition g5_groebnerRow25_00000_f t := GR t 25 55 55 [(56,56);(57,57);(58,58);(65,65);(66,66);(67,67);(68,68);(69,69);(70,70);(71,71);(72,72);(73,73);(74,74);(75,75);(76,76);(77,77);(78,78);(79,79)].
(** groebnerRow10_11000_f, src/absolute_pose/modules/gpnp5/reductors.cpp 1557 *)
Definition g5_groebnerRow10_11000_f t := GR t 10 6 64 [(7,65);(8,66);(9,67);(10,68);(17,69);(18,70);(19,71);(20,72);(24,73);(50,74);(51,75);(52,76);(53,77);(57,78);(72,79)].
(** groebnerRow26_10000_f, src/absolute_pose/modules/gpnp5/reductors.cpp 1579 *)
Definition g5_groebnerRow26_10000_f t := GR t 26 23 56 [(24,57);(25,58);(50,65);(51,66);(52,67);(53,68);(54,69);(55,70);(56,71);(57,72);(58,73);(69,74);(70,75);(71,76);(72,77);(73,78);(78,79)].
(** groebnerRow26_00000_f, src/absolute_pose/modules/gpnp5/reductors.cpp 1603 *)
Definition g5_groebnerRow26_00000_f t := GR t 26 56 56 [(57,57);(58,58);(65,65);(66,66);(67,67);(68,68);(69,69);(70,70);(71,71);(72,72);(73,73);(74,74);(75,75);(76,76);(77,77);(78,78);(79,79)].
(** groebnerRow27_10000_f, src/absolute_pose/modules/gpnp5/reductors.cpp 1627 *)
Definition g5_groebnerRow27_10000_f t := GR t 27 24 57 [(25,58);(50,65);(51,66);(52,67);(53,68);(54,69);(55,70);(56,71);(57,72);(58,73);(69,74);(70,75);(71,76);(72,77);(73,78);(78,79)].
(** groebnerRow27_00000_f, src/absolute_pose/modules/gpnp5/reductors.cpp 1650 *)
Definition g5_groebnerRow27_00000_f t := GR t 27 57 57 [(58,58);(65,65);(66,66);(67,67);(68,68);(69,69);(70,70);(71,71);(72,72);(73,73);(74,74);(75,75);(76,76);(77,77);(78,78);(79,79)].
(** groebnerRow9_11000_f, src/absolute_pose/modules/gpnp5/reductors.cpp 1673 *)
Definition g5_groebnerRow9_11000_f t := GR t 9 5 63 [(6,64);(7,65);(8,66);(9,67);(10,68);(17,69);(18,70);(19,71);(20,72);(24,73);(50,74);(51,75);(52,76);(53,77);(57,78);(72,79)].
(** groebnerRow28_10000_f, src/absolute_pose/modules/gpnp5/reductors.cpp 1696 *)
Definition g5_groebnerRow28_10000_f t := GR t 28 25 58 [(50,65);(51,66);(52,67);(53,68);(54,69);(55,70);(56,71);(57,72);(58,73);(69,74);(70,75);(71,76);(72,77);(73,78);(78,79)].
(** groebnerRow28_00000_f, src/absolute_pose/modules/gpnp5/reductors.cpp 1718 *)
Definition g5_groebnerRow28_00000_f t := GR t 28 58 58 [(65,65);(66,66);(67,67);(68,68);(69,69);(70,70);(71,71);(72,72);(73,73);(74,74);(75,75);(76,76);(77,77);(78,78);(79,79)].
(** groebnerRow18_00001_f, src/absolute_pose/modules/gpnp5/reductors.cpp 1740 *)
Definition g5_groebnerRow18_00001_f t := GR t 18 7 53 [(11,54);(12,55);(14,56);(17,57);(21,58);(34,65);(35,66);(37,67);(40,68);(44,69);(45,70);(47,71);(50,72);(54,73);(59,74);(60,75);(62,76);(65,77);(69,78);(74,79)].
(** groebnerRow24_01000_f, src/absolute_pose/modules/gpnp5/reductors.cpp 1767 *)
Definition g5_groebnerRow24_01000_f t := GR t 24 17 54 [(18,55);(19,56);(20,57);(24,58);(40,65);(41,66);(42,67);(43,68);(50,69);(51,70);(52,71);(53,72);(57,73);(65,74);(66,75);(67,76);(68,77);(72,78);(77,79)].
(** groebnerRow29_01000_f, src/absolute_pose/modules/gpnp5/reductors.cpp 1793 *)
Definition g5_groebnerRow29_01000_f t := GR t 29 40 65 [(41,66);(42,67);(43,68);(50,69);(51,70);(52,71);(53,72);(57,73);(65,74);(66,75);(67,76);(68,77);(72,78);(77,79)].
(** groebnerRow29_10000_f, src/absolute_pose/modules/gpnp5/reductors.cpp 1814 *)
Definition g5_groebnerRow29_10000_f t := GR t 29 50 65 [(51,66);(52,67);(53,68);(54,69);(55,70);(56,71);(57,72);(58,73);(69,74);(70,75);(71,76);(72,77);(73,78);(78,79)].
(** groebnerRow29_00000_f, src/absolute_pose/modules/gpnp5/reductors.cpp 1835 *)
Definition g5_groebnerRow29_00000_f t := GR t 29 65 65 [(66,66);(67,67);(68,68);(69,69);(70,70);(71,71);(72,72);(73,73);(74,74);(75,75);(76,76);(77,77);(78,78);(79,79)].
(** groebnerRow14_01000_f, src/absolute_pose/modules/gpnp5/reductors.cpp 1856 *)
Definition g5_groebnerRow14_01000_f t := GR t 14 1 43 [(7,50);(8,51);(9,52);(10,53);(17,54);(18,55);(19,56);(20,57);(24,58);(40,65);(41,66);(42,67);(43,68);(50,69);(51,70);(52,71);(53,72);(57,73);(65,74);(66,75);(67,76);(68,77);(72,78);(77,79)].
(** groebnerRow8_11000_f, src/absolute_pose/modules/gpnp5/reductors.cpp 1887 *)
Definition g5_groebnerRow8_11000_f t := GR t 8 4 62 [(5,63);(6,64);(7,65);(8,66);(9,67);(10,68);(17,69);(18,70);(19,71);(20,72);(24,73);(50,74);(51,75);(52,76);(53,77);(57,78);(72,79)].
(** groebnerRow18_00010_f, src/absolute_pose/modules/gpnp5/reductors.cpp 1911 *)
Definition g5_groebnerRow18_00010_f t := GR t 18 8 53 [(12,54);(13,55);(15,56);(18,57);(22,58);(35,65);(36,66);(38,67);(41,68);(45,69);(46,70);(48,71);(51,72);(55,73);(60,74);(61,75);(63,76);(66,77);(70,78);(75,79)].
(** groebnerRow25_01000_f, src/absolute_pose/modules/gpnp5/reductors.cpp 1938 *)
Definition g5_groebnerRow25_01000_f t := GR t 25 18 55 [(19,56);(20,57);(24,58);(40,65);(41,66);(42,67);(43,68);(50,69);(51,70);(52,71);(53,72);(57,73);(65,74);(66,75);(67,76);(68,77);(72,78);(77,79)].
(** groebnerRow30_01000_f, src/absolute_pose/modules/gpnp5/reductors.cpp 1963 *)
Definition g5_groebnerRow30_01000_f t := GR t 30 41 66 [(42,67);(43,68);(50,69);(51,70);(52,71);(53,72);(57,73);(65,74);(66,75);(67,76);(68,77);(72,78);(77,79)].
(** groebnerRow30_10000_f, src/absolute_pose/modules/gpnp5/reductors.cpp 1983 *)
Definition g5_groebnerRow30_10000_f t := GR t 30 51 66 [(52,67);(53,68);(54,69);(55,70);(56,71);(57,72);(58,73);(69,74);(70,75);(71,76);(72,77);(73,78);(78,79)].
(** groebnerRow30_00000_f, src/absolute_pose/modules/gpnp5/reductors.cpp 2003 *)
Definition g5_groebnerRow30_00000_f t := GR t 30 66 66 [(67,67);(68,68);(69,69);(70,70);(71,71);(72,72);(73,73);(74,74);(75,75);(76,76);(77,77);(78,78);(79,79)].
(** groebnerRow14_00100_f, src/absolute_pose/modules/gpnp5/reductors.cpp 2023 *)
Definition g5_groebnerRow14_00100_f t := GR t 14 0 43 [(4,50);(5,51);(6,52);(9,53);(14,54);(15,55);(16,56);(19,57);(23,58);(37,65);(38,66);(39,67);(42,68);(47,69);(48,70);(49,71);(52,72);(56,73);(62,74);(63,75);(64,76);(67,77);(71,78);(76,79)].
(** groebnerRow6_11000_f, src/absolute_pose/modules/gpnp5/reductors.cpp 2054 *)
Definition g5_groebnerRow6_11000_f t := GR t 6 2 60 [(3,61);(4,62);(5,63);(6,64);(7,65);(8,66);(9,67);(10,68);(17,69);(18,70);(19,71);(20,72);(24,73);(50,74);(51,75);(52,76);(53,77);(57,78);(72,79)].
(** groebnerRow7_11000_f, src/absolute_pose/modules/gpnp5/reductors.cpp 2080 *)
Definition g5_groebnerRow7_11000_f t := GR t 7 3 61 [(4,62);(5,63);(6,64);(7,65);(8,66);(9,67);(10,68);(17,69);(18,70);(19,71);(20,72);(24,73);(50,74);(51,75);(52,76);(53,77);(57,78);(72,79)].
(** groebnerRow18_00100_f, src/absolute_pose/modules/gpnp5/reductors.cpp 2105 *)
Definition g5_groebnerRow18_00100_f t := GR t 18 9 53 [(14,54);(15,55);(16,56);(19,57);(23,58);(37,65);(38,66);(39,67);(42,68);(47,69);(48,70);(49,71);(52,72);(56,73);(62,74);(63,75);(64,76);(67,77);(71,78);(76,79)].
(** groebnerRow26_01000_f, src/absolute_pose/modules/gpnp5/reductors.cpp 2132 *)
Definition g5_groebnerRow26_01000_f t := GR t 26 19 56 [(20,57);(24,58);(40,65);(41,66);(42,67);(43,68);(50,69);(51,70);(52,71);(53,72);(57,73);(65,74);(66,75);(67,76);(68,77);(72,78);(77,79)].
(** groebnerRow31_01000_f, src/absolute_pose/modules/gpnp5/reductors.cpp 2156 *)
Definition g5_groebnerRow31_01000_f t := GR t 31 42 67 [(43,68);(50,69);(51,70);(52,71);(53,72);(57,73);(65,74);(66,75);(67,76);(68,77);(72,78);(77,79)].
(** groebnerRow31_10000_f, src/absolute_pose/modules/gpnp5/reductors.cpp 2175 *)
Definition g5_groebnerRow31_10000_f t := GR t 31 52 67 [(53,68);(54,69);(55,70);(56,71);(57,72);(58,73);(69,74);(70,75);(71,76);(72,77);(73,78);(78,79)].
(** groebnerRow31_00000_f, src/absolute_pose/modules/gpnp5/reductors.cpp 2194 *)
Definition g5_groebnerRow31_00000_f t := GR t 31 67 67 [(68,68);(69,69);(70,70);(71,71);(72,72);(73,73);(74,74);(75,75);(76,76);(77,77);(78,78);(79,79)].
(** groebnerRow32_00000_f, src/absolute_pose/modules/gpnp5/reductors.cpp 2213 *)
Definition g5_groebnerRow32_00000_f t := GR t 32 68 68 [(69,69);(70,70);(71,71);(72,72);(73,73);(74,74);(75,75);(76,76);(77,77);(78,78);(79,79)].
(** groebnerRow32_10000_f, src/absolute_pose/modules/gpnp5/reductors.cpp 2231 *)
Definition g5_groebnerRow32_10000_f t := GR t 32 53 68 [(54,69);(55,70);(56,71);(57,72);(58,73);(69,74);(70,75);(71,76);(72,77);(73,78);(78,79)].
(** groebnerRow33_10000_f, src/absolute_pose/modules/gpnp5/reductors.cpp 2249 *)
Definition g5_groebnerRow33_10000_f t := GR t 33 54 69 [(55,70);(56,71);(57,72);(58,73);(69,74);(70,75);(71,76);(72,77);(73,78);(78,79)].
(** groebnerRow33_00000_f, src/absolute_pose/modules/gpnp5/reductors.cpp 2266 *)
Definition g5_groebnerRow33_00000_f t := GR t 33 69 69 [(70,70);(71,71);(72,72);(73,73);(74,74);(75,75);(76,76);(77,77);(78,78);(79,79)].
(** groebnerRow34_10000_f, src/absolute_pose/modules/gpnp5/reductors.cpp 2283 *)
Definition g5_groebnerRow34_10000_f t := GR t 34 55 70 [(56,71);(57,72);(58,73);(69,74);(70,75);(71,76);(72,77);(73,78);(78,79)].
(** groebnerRow34_00000_f, src/absolute_pose/modules/gpnp5/reductors.cpp 2299 *)
Definition g5_groebnerRow34_00000_f t := GR t 34 70 70 [(71,71);(72,72);(73,73);(74,74);(75,75);(76,76);(77,77);(78,78);(79,79)].
(** groebnerRow35_10000_f, src/absolute_pose/modules/gpnp5/reductors.cpp 2315 *)
Definition g5_groebnerRow35_10000_f t := GR t 35 56 71 [(57,72);(58,73);(69,74);(70,75);(71,76);(72,77);(73,78);(78,79)].
(** groebnerRow35_00000_f, src/absolute_pose/modules/gpnp5/reductors.cpp 2330 *)
Definition g5_groebnerRow35_00000_f t := GR t 35 71 71 [(72,72);(73,73);(74,74);(75,75);(76,76);(77,77);(78,78);(79,79)].
(** groebnerRow36_10000_f, src/absolute_pose/modules/gpnp5/reductors.cpp 2345 *)
Definition g5_groebnerRow36_10000_f t := GR t 36 57 72 [(58,73);(69,74);(70,75);(71,76);(72,77);(73,78);(78,79)].
(** groebnerRow36_00000_f, src/absolute_pose/modules/gpnp5/reductors.cpp 2359 *)
Definition g5_groebnerRow36_00000_f t := GR t 36 72 72 [(73,73);(74,74);(75,75);(76,76);(77,77);(78,78);(79,79)].
(** groebnerRow32_01000_f, src/absolute_pose/modules/gpnp5/reductors.cpp 2373 *)
Definition g5_groebnerRow32_01000_f t := GR t 32 43 68 [(50,69);(51,70);(52,71);(53,72);(57,73);(65,74);(66,75);(67,76);(68,77);(72,78);(77,79)].
(** groebnerRow37_10000_f, src/absolute_pose/modules/gpnp5/reductors.cpp 2391 *)
Definition g5_groebnerRow37_10000_f t := GR t 37 58 73 [(69,74);(70,75);(71,76);(72,77);(73,78);(78,79)].
(** groebnerRow37_00000_f, src/absolute_pose/modules/gpnp5/reductors.cpp 2404 *)
Definition g5_groebnerRow37_00000_f t := GR t 37 73 73 [(74,74);(75,75);(76,76);(77,77);(78,78);(79,79)].
(** groebnerRow35_00001_f, src/absolute_pose/modules/gpnp5/reductors.cpp 2417 *)
Definition g5_groebnerRow35_00001_f t := GR t 35 47 71 [(50,72);(54,73);(59,74);(60,75);(62,76);(65,77);(69,78);(74,79)].
(** groebnerRow36_00001_f, src/absolute_pose/modules/gpnp5/reductors.cpp 2432 *)
Definition g5_groebnerRow36_00001_f t := GR t 36 50 72 [(54,73);(59,74);(60,75);(62,76);(65,77);(69,78);(74,79)].
(** groebnerRow37_00001_f, src/absolute_pose/modules/gpnp5/reductors.cpp 2446 *)
Definition g5_groebnerRow37_00001_f t := GR t 37 54 73 [(59,74);(60,75);(62,76);(65,77);(69,78);(74,79)].
(** groebnerRow38_00001_f, src/absolute_pose/modules/gpnp5/reductors.cpp 2459 *)
Definition g5_groebnerRow38_00001_f t := GR t 38 59 74 [(60,75);(62,76);(65,77);(69,78);(74,79)].
(** groebnerRow38_00010_f, src/absolute_pose/modules/gpnp5/reductors.cpp 2471 *)
Definition g5_groebnerRow38_00010_f t := GR t 38 60 74 [(61,75);(63,76);(66,77);(70,78);(75,79)].
(** groebnerRow38_00100_f, src/absolute_pose/modules/gpnp5/reductors.cpp 2483 *)
Definition g5_groebnerRow38_00100_f t := GR t 38 62 74 [(63,75);(64,76);(67,77);(71,78);(76,79)].
(** groebnerRow38_01000_f, src/absolute_pose/modules/gpnp5/reductors.cpp 2495 *)
Definition g5_groebnerRow38_01000_f t := GR t 38 65 74 [(66,75);(67,76);(68,77);(72,78);(77,79)].
(** groebnerRow38_10000_f, src/absolute_pose/modules/gpnp5/reductors.cpp 2507 *)
Definition g5_groebnerRow38_10000_f t := GR t 38 69 74 [(70,75);(71,76);(72,77);(73,78);(78,79)].
(** groebnerRow38_00000_f, src/absolute_pose/modules/gpnp5/reductors.cpp 2519 *)
Definition g5_groebnerRow38_00000_f t := GR t 38 74 74 [(75,75);(76,76);(77,77);(78,78);(79,79)].
(** groebnerRow36_00010_f, src/absolute_pose/modules/gpnp5/reductors.cpp 2531 *)
Definition g5_groebnerRow36_00010_f t := GR t 36 51 72 [(55,73);(60,74);(61,75);(63,76);(66,77);(70,78);(75,79)].
(** groebnerRow37_00010_f, src/absolute_pose/modules/gpnp5/reductors.cpp 2545 *)
Definition g5_groebnerRow37_00010_f t := GR t 37 55 73 [(60,74);(61,75);(63,76);(66,77);(70,78);(75,79)].
(** groebnerRow39_00010_f, src/absolute_pose/modules/gpnp5/reductors.cpp 2558 *)
Definition g5_groebnerRow39_00010_f t := GR t 39 61 75 [(63,76);(66,77);(70,78);(75,79)].
(** groebnerRow39_00100_f, src/absolute_pose/modules/gpnp5/reductors.cpp 2569 *)
Definition g5_groebnerRow39_00100_f t := GR t 39 63 75 [(64,76);(67,77);(71,78);(76,79)].
(** groebnerRow39_01000_f, src/absolute_pose/modules/gpnp5/reductors.cpp 2580 *)
Definition g5_groebnerRow39_01000_f t := GR t 39 66 75 [(67,76);(68,77);(72,78);(77,79)].
(** groebnerRow39_10000_f, src/absolute_pose/modules/gpnp5/reductors.cpp 2591 *)
Definition g5_groebnerRow39_10000_f t := GR t 39 70 75 [(71,76);(72,77);(73,78);(78,79)].
(** groebnerRow39_00000_f, src/absolute_pose/modules/gpnp5/reductors.cpp 2602 *)
Definition g5_groebnerRow39_00000_f t := GR t 39 75 75 [(76,76);(77,77);(78,78);(79,79)].
(** groebnerRow32_00100_f, src/absolute_pose/modules/gpnp5/reductors.cpp 2613 *)
Definition g5_groebnerRow32_00100_f t := GR t 32 42 68 [(47,69);(48,70);(49,71);(52,72);(56,73);(62,74);(63,75);(64,76);(67,77);(71,78);(76,79)].
(** groebnerRow38_10010_f, src/absolute_pose/modules/gpnp5/reductors.cpp 2631 *)
Definition g5_groebnerRow38_10010_f t := GR t 38 45 74 [(46,75);(48,76);(51,77);(55,78);(70,79)].
(** groebnerRow39_10010_f, src/absolute_pose/modules/gpnp5/reductors.cpp 2643 *)
Definition g5_groebnerRow39_10010_f t := GR t 39 46 75 [(48,76);(51,77);(55,78);(70,79)].
(** groebnerRow38_10100_f, src/absolute_pose/modules/gpnp5/reductors.cpp 2654 *)
Definition g5_groebnerRow38_10100_f t := GR t 38 47 74 [(48,75);(49,76);(52,77);(56,78);(71,79)].
(** groebnerRow39_10100_f, src/absolute_pose/modules/gpnp5/reductors.cpp 2666 *)
Definition g5_groebnerRow39_10100_f t := GR t 39 48 75 [(49,76);(52,77);(56,78);(71,79)].
(** groebnerRow40_10100_f, src/absolute_pose/modules/gpnp5/reductors.cpp 2677 *)
Definition g5_groebnerRow40_10100_f t := GR t 40 49 76 [(52,77);(56,78);(71,79)].
(** groebnerRow36_00100_f, src/absolute_pose/modules/gpnp5/reductors.cpp 2687 *)
Definition g5_groebnerRow36_00100_f t := GR t 36 52 72 [(56,73);(62,74);(63,75);(64,76);(67,77);(71,78);(76,79)].
(** groebnerRow37_00100_f, src/absolute_pose/modules/gpnp5/reductors.cpp 2701 *)
Definition g5_groebnerRow37_00100_f t := GR t 37 56 73 [(62,74);(63,75);(64,76);(67,77);(71,78);(76,79)].
(** groebnerRow40_00100_f, src/absolute_pose/modules/gpnp5/reductors.cpp 2714 *)
Definition g5_groebnerRow40_00100_f t := GR t 40 64 76 [(67,77);(71,78);(76,79)].
(** groebnerRow40_01000_f, src/absolute_pose/modules/gpnp5/reductors.cpp 2724 *)
Definition g5_groebnerRow40_01000_f t := GR t 40 67 76 [(68,77);(72,78);(77,79)].
(** groebnerRow40_10000_f, src/absolute_pose/modules/gpnp5/reductors.cpp 2734 *)
Definition g5_groebnerRow40_10000_f t := GR t 40 71 76 [(72,77);(73,78);(78,79)].
(** groebnerRow40_00000_f, src/absolute_pose/modules/gpnp5/reductors.cpp 2744 *)
Definition g5_groebnerRow40_00000_f t := GR t 40 76 76 [(77,77);(78,78);(79,79)].
(** groebnerRow39_02000_f, src/absolute_pose/modules/gpnp5/reductors.cpp 2754 *)
Definition g5_groebnerRow39_02000_f t := GR t 39 41 75 [(42,76);(43,77);(53,78);(68,79)].
(** groebnerRow40_02000_f, src/absolute_pose/modules/gpnp5/reductors.cpp 2765 *)
Definition g5_groebnerRow40_02000_f t := GR t 40 42 76 [(43,77);(53,78);(68,79)].
(** groebnerRow41_02000_f, src/absolute_pose/modules/gpnp5/reductors.cpp 2775 *)
Definition g5_groebnerRow41_02000_f t := GR t 41 43 77 [(53,78);(68,79)].
(** groebnerRow38_11000_f, src/absolute_pose/modules/gpnp5/reductors.cpp 2784 *)
Definition g5_groebnerRow38_11000_f t := GR t 38 50 74 [(51,75);(52,76);(53,77);(57,78);(72,79)].
(** groebnerRow39_11000_f, src/absolute_pose/modules/gpnp5/reductors.cpp 2796 *)
Definition g5_groebnerRow39_11000_f t := GR t 39 51 75 [(52,76);(53,77);(57,78);(72,79)].
(** groebnerRow40_11000_f, src/absolute_pose/modules/gpnp5/reductors.cpp 2807 *)
Definition g5_groebnerRow40_11000_f t := GR t 40 52 76 [(53,77);(57,78);(72,79)].
(** groebnerRow41_11000_f, src/absolute_pose/modules/gpnp5/reductors.cpp 2817 *)
Definition g5_groebnerRow41_11000_f t := GR t 41 53 77 [(57,78);(72,79)].
(** groebnerRow37_01000_f, src/absolute_pose/modules/gpnp5/reductors.cpp 2826 *)
Definition g5_groebnerRow37_01000_f t := GR t 37 57 73 [(65,74);(66,75);(67,76);(68,77);(72,78);(77,79)].
(** groebnerRow41_01000_f, src/absolute_pose/modules/gpnp5/reductors.cpp 2839 *)
Definition g5_groebnerRow41_01000_f t := GR t 41 68 77 [(72,78);(77,79)].
(** groebnerRow41_10000_f, src/absolute_pose/modules/gpnp5/reductors.cpp 2848 *)
Definition g5_groebnerRow41_10000_f t := GR t 41 72 77 [(73,78);(78,79)].
(** groebnerRow41_00000_f, src/absolute_pose/modules/gpnp5/reductors.cpp 2857 *)
Definition g5_groebnerRow41_00000_f t := GR t 41 77 77 [(78,78);(79,79)].
(** groebnerRow38_20000_f, src/absolute_pose/modules/gpnp5/reductors.cpp 2866 *)
Definition g5_groebnerRow38_20000_f t := GR t 38 54 74 [(55,75);(56,76);(57,77);(58,78);(73,79)].
(** groebnerRow39_20000_f, src/absolute_pose/modules/gpnp5/reductors.cpp 2878 *)
Definition g5_groebnerRow39_20000_f t := GR t 39 55 75 [(56,76);(57,77);(58,78);(73,79)].
(** groebnerRow40_20000_f, src/absolute_pose/modules/gpnp5/reductors.cpp 2889 *)
Definition g5_groebnerRow40_20000_f t := GR t 40 56 76 [(57,77);(58,78);(73,79)].
(** groebnerRow41_20000_f, src/absolute_pose/modules/gpnp5/reductors.cpp 2899 *)
Definition g5_groebnerRow41_20000_f t := GR t 41 57 77 [(58,78);(73,79)].
(** groebnerRow42_20000_f, src/absolute_pose/modules/gpnp5/reductors.cpp 2908 *)
Definition g5_groebnerRow42_20000_f t := GR t 42 58 78 [(73,79)].
(** groebnerRow42_10000_f, src/absolute_pose/modules/gpnp5/reductors.cpp 2916 *)
Definition g5_groebnerRow42_10000_f t := GR t 42 73 78 [(78,79)].
(** groebnerRow42_00000_f, src/absolute_pose/modules/gpnp5/reductors.cpp 2924 *)
Definition g5_groebnerRow42_00000_f t := GR t 42 78 78 [(79,79)].
(** compute, src/absolute_pose/modules/gpnp5/code.cpp *)
Definition g5_compute : list gop := [
  g5_sPolynomial6;
  g5_sPolynomial7;
  g5_groebnerRow6_00000_f 7;
  g5_sPolynomial8;
  g5_groebnerRow6_00000_f 8;
  g5_groebnerRow7_00000_f 8;
  g5_sPolynomial9;
  g5_groebnerRow6_00000_f 9;
  g5_groebnerRow7_00000_f 9;
  g5_groebnerRow8_00000_f 9;
  g5_sPolynomial10;
  g5_groebnerRow6_00000_f 10;
  g5_groebnerRow7_00000_f 10;
  g5_groebnerRow8_00000_f 10;
  g5_groebnerRow9_00000_f 10;
  g5_sPolynomial11;
  g5_groebnerRow10_00100_f 11;
  g5_groebnerRow6_01000_f 11;
  g5_groebnerRow7_01000_f 11;
  g5_groebnerRow8_01000_f 11;
  g5_groebnerRow9_01000_f 11;
  g5_groebnerRow10_01000_f 11;
  g5_groebnerRow6_10000_f 11;
  g5_groebnerRow7_10000_f 11;
  g5_groebnerRow8_10000_f 11;
  g5_groebnerRow9_10000_f 11;
  g5_groebnerRow10_10000_f 11;
  g5_groebnerRow6_00000_f 11;
  g5_groebnerRow7_00000_f 11;
  g5_groebnerRow8_00000_f 11;
  g5_groebnerRow9_00000_f 11;
  g5_groebnerRow10_00000_f 11;
  g5_sPolynomial12;
  g5_groebnerRow9_00100_f 12;
  g5_groebnerRow10_00100_f 12;
  g5_groebnerRow5_01000_f 12;
  g5_groebnerRow6_01000_f 12;
  g5_groebnerRow7_01000_f 12;
  g5_groebnerRow8_01000_f 12;
  g5_groebnerRow9_01000_f 12;
  g5_groebnerRow10_01000_f 12;
  g5_groebnerRow11_00000_f 12;
  g5_groebnerRow5_10000_f 12;
  g5_groebnerRow6_10000_f 12;
  g5_groebnerRow7_10000_f 12;
  g5_groebnerRow8_10000_f 12;
  g5_groebnerRow9_10000_f 12;
  g5_groebnerRow10_10000_f 12;
  g5_groebnerRow5_00000_f 12;
  g5_groebnerRow6_00000_f 12;
  g5_groebnerRow7_00000_f 12;
  g5_groebnerRow8_00000_f 12;
  g5_groebnerRow9_00000_f 12;
  g5_groebnerRow10_00000_f 12;
  g5_sPolynomial13;
  g5_groebnerRow8_00100_f 13;
  g5_groebnerRow9_00100_f 13;
  g5_groebnerRow10_00100_f 13;
  g5_groebnerRow6_01000_f 13;
  g5_groebnerRow7_01000_f 13;
  g5_groebnerRow8_01000_f 13;
  g5_groebnerRow9_01000_f 13;
  g5_groebnerRow10_01000_f 13;
  g5_groebnerRow11_00000_f 13;
  g5_groebnerRow12_00000_f 13;
  g5_groebnerRow6_10000_f 13;
  g5_groebnerRow7_10000_f 13;
  g5_groebnerRow8_10000_f 13;
  g5_groebnerRow9_10000_f 13;
  g5_groebnerRow10_10000_f 13;
  g5_groebnerRow6_00000_f 13;
  g5_groebnerRow7_00000_f 13;
  g5_groebnerRow8_00000_f 13;
  g5_groebnerRow9_00000_f 13;
  g5_groebnerRow10_00000_f 13;
  g5_sPolynomial14;
  g5_groebnerRow7_00100_f 14;
  g5_groebnerRow8_00100_f 14;
  g5_groebnerRow9_00100_f 14;
  g5_groebnerRow10_00100_f 14;
  g5_groebnerRow6_01000_f 14;
  g5_groebnerRow7_01000_f 14;
  g5_groebnerRow8_01000_f 14;
  g5_groebnerRow9_01000_f 14;
  g5_groebnerRow10_01000_f 14;
  g5_groebnerRow11_00000_f 14;
  g5_groebnerRow12_00000_f 14;
  g5_groebnerRow13_00000_f 14;
  g5_groebnerRow6_10000_f 14;
  g5_groebnerRow7_10000_f 14;
  g5_groebnerRow8_10000_f 14;
  g5_groebnerRow9_10000_f 14;
  g5_groebnerRow10_10000_f 14;
  g5_groebnerRow6_00000_f 14;
  g5_groebnerRow7_00000_f 14;
  g5_groebnerRow8_00000_f 14;
  g5_groebnerRow9_00000_f 14;
  g5_groebnerRow10_00000_f 14;
  g5_sPolynomial15;
  g5_groebnerRow7_00100_f 15;
  g5_groebnerRow8_00100_f 15;
  g5_groebnerRow9_00100_f 15;
  g5_groebnerRow10_00100_f 15;
  g5_groebnerRow5_01000_f 15;
  g5_groebnerRow6_01000_f 15;
  g5_groebnerRow7_01000_f 15;
  g5_groebnerRow8_01000_f 15;
  g5_groebnerRow9_01000_f 15;
  g5_groebnerRow10_01000_f 15;
  g5_groebnerRow11_00000_f 15;
  g5_groebnerRow12_00000_f 15;
  g5_groebnerRow13_00000_f 15;
  g5_groebnerRow14_00000_f 15;
  g5_groebnerRow5_10000_f 15;
  g5_groebnerRow6_10000_f 15;
  g5_groebnerRow7_10000_f 15;
  g5_groebnerRow8_10000_f 15;
  g5_groebnerRow9_10000_f 15;
  g5_groebnerRow10_10000_f 15;
  g5_groebnerRow5_00000_f 15;
  g5_groebnerRow6_00000_f 15;
  g5_groebnerRow7_00000_f 15;
  g5_groebnerRow8_00000_f 15;
  g5_groebnerRow9_00000_f 15;
  g5_groebnerRow10_00000_f 15;
  g5_sPolynomial16;
  g5_groebnerRow6_00100_f 16;
  g5_groebnerRow7_00100_f 16;
  g5_groebnerRow8_00100_f 16;
  g5_groebnerRow9_00100_f 16;
  g5_groebnerRow10_00100_f 16;
  g5_groebnerRow5_01000_f 16;
  g5_groebnerRow6_01000_f 16;
  g5_groebnerRow7_01000_f 16;
  g5_groebnerRow8_01000_f 16;
  g5_groebnerRow9_01000_f 16;
  g5_groebnerRow10_01000_f 16;
  g5_groebnerRow11_00000_f 16;
  g5_groebnerRow12_00000_f 16;
  g5_groebnerRow13_00000_f 16;
  g5_groebnerRow14_00000_f 16;
  g5_groebnerRow5_10000_f 16;
  g5_groebnerRow6_10000_f 16;
  g5_groebnerRow7_10000_f 16;
  g5_groebnerRow8_10000_f 16;
  g5_groebnerRow9_10000_f 16;
  g5_groebnerRow10_10000_f 16;
  g5_groebnerRow15_00000_f 16;
  g5_groebnerRow5_00000_f 16;
  g5_groebnerRow6_00000_f 16;
  g5_groebnerRow7_00000_f 16;
  g5_groebnerRow8_00000_f 16;
  g5_groebnerRow9_00000_f 16;
  g5_groebnerRow10_00000_f 16;
  g5_sPolynomial17;
  g5_groebnerRow7_00010_f 17;
  g5_groebnerRow5_00100_f 17;
  g5_groebnerRow6_00100_f 17;
  g5_groebnerRow7_00100_f 17;
  g5_groebnerRow8_00100_f 17;
  g5_groebnerRow9_00100_f 17;
  g5_groebnerRow10_00100_f 17;
  g5_groebnerRow5_01000_f 17;
  g5_groebnerRow6_01000_f 17;
  g5_groebnerRow7_01000_f 17;
  g5_groebnerRow8_01000_f 17;
  g5_groebnerRow9_01000_f 17;
  g5_groebnerRow10_01000_f 17;
  g5_groebnerRow11_00000_f 17;
  g5_groebnerRow12_00000_f 17;
  g5_groebnerRow13_00000_f 17;
  g5_groebnerRow14_00000_f 17;
  g5_groebnerRow5_10000_f 17;
  g5_groebnerRow6_10000_f 17;
  g5_groebnerRow7_10000_f 17;
  g5_groebnerRow8_10000_f 17;
  g5_groebnerRow9_10000_f 17;
  g5_groebnerRow10_10000_f 17;
  g5_groebnerRow15_00000_f 17;
  g5_groebnerRow16_00000_f 17;
  g5_groebnerRow5_00000_f 17;
  g5_groebnerRow6_00000_f 17;
  g5_groebnerRow7_00000_f 17;
  g5_groebnerRow8_00000_f 17;
  g5_groebnerRow9_00000_f 17;
  g5_groebnerRow10_00000_f 17;
  g5_sPolynomial18;
  g5_groebnerRow6_00010_f 18;
  g5_groebnerRow7_00010_f 18;
  g5_groebnerRow5_00100_f 18;
  g5_groebnerRow6_00100_f 18;
  g5_groebnerRow7_00100_f 18;
  g5_groebnerRow8_00100_f 18;
  g5_groebnerRow9_00100_f 18;
  g5_groebnerRow10_00100_f 18;
  g5_groebnerRow5_01000_f 18;
  g5_groebnerRow6_01000_f 18;
  g5_groebnerRow7_01000_f 18;
  g5_groebnerRow8_01000_f 18;
  g5_groebnerRow9_01000_f 18;
  g5_groebnerRow10_01000_f 18;
  g5_groebnerRow11_00000_f 18;
  g5_groebnerRow12_00000_f 18;
  g5_groebnerRow13_00000_f 18;
  g5_groebnerRow14_00000_f 18;
  g5_groebnerRow5_10000_f 18;
  g5_groebnerRow6_10000_f 18;
  g5_groebnerRow7_10000_f 18;
  g5_groebnerRow8_10000_f 18;
  g5_groebnerRow9_10000_f 18;
  g5_groebnerRow10_10000_f 18;
  g5_groebnerRow15_00000_f 18;
  g5_groebnerRow16_00000_f 18;
  g5_groebnerRow17_00000_f 18;
  g5_groebnerRow5_00000_f 18;
  g5_groebnerRow6_00000_f 18;
  g5_groebnerRow7_00000_f 18;
  g5_groebnerRow8_00000_f 18;
  g5_groebnerRow9_00000_f 18;
  g5_groebnerRow10_00000_f 18;
  g5_sPolynomial19;
  g5_groebnerRow15_10000_f 19;
  g5_groebnerRow16_10000_f 19;
  g5_groebnerRow17_10000_f 19;
  g5_groebnerRow18_10000_f 19;
  g5_groebnerRow11_00000_f 19;
  g5_groebnerRow12_00000_f 19;
  g5_groebnerRow13_00000_f 19;
  g5_groebnerRow14_00000_f 19;
  g5_groebnerRow15_00000_f 19;
  g5_groebnerRow16_00000_f 19;
  g5_groebnerRow17_00000_f 19;
  g5_groebnerRow18_00000_f 19;
  g5_sPolynomial20;
  g5_groebnerRow14_10000_f 20;
  g5_groebnerRow15_10000_f 20;
  g5_groebnerRow16_10000_f 20;
  g5_groebnerRow17_10000_f 20;
  g5_groebnerRow18_10000_f 20;
  g5_groebnerRow19_00000_f 20;
  g5_groebnerRow11_00000_f 20;
  g5_groebnerRow12_00000_f 20;
  g5_groebnerRow13_00000_f 20;
  g5_groebnerRow14_00000_f 20;
  g5_groebnerRow15_00000_f 20;
  g5_groebnerRow16_00000_f 20;
  g5_groebnerRow17_00000_f 20;
  g5_groebnerRow18_00000_f 20;
  g5_sPolynomial21;
  g5_groebnerRow14_10000_f 21;
  g5_groebnerRow8_20000_f 21;
  g5_groebnerRow9_20000_f 21;
  g5_groebnerRow10_20000_f 21;
  g5_groebnerRow15_10000_f 21;
  g5_groebnerRow16_10000_f 21;
  g5_groebnerRow17_10000_f 21;
  g5_groebnerRow18_10000_f 21;
  g5_groebnerRow19_00000_f 21;
  g5_groebnerRow20_00000_f 21;
  g5_groebnerRow8_01000_f 21;
  g5_groebnerRow9_01000_f 21;
  g5_groebnerRow10_01000_f 21;
  g5_groebnerRow11_00000_f 21;
  g5_groebnerRow12_00000_f 21;
  g5_groebnerRow13_00000_f 21;
  g5_groebnerRow14_00000_f 21;
  g5_groebnerRow8_10000_f 21;
  g5_groebnerRow9_10000_f 21;
  g5_groebnerRow10_10000_f 21;
  g5_groebnerRow15_00000_f 21;
  g5_groebnerRow16_00000_f 21;
  g5_groebnerRow17_00000_f 21;
  g5_groebnerRow18_00000_f 21;
  g5_groebnerRow8_00000_f 21;
  g5_groebnerRow9_00000_f 21;
  g5_groebnerRow10_00000_f 21;
  g5_sPolynomial22;
  g5_groebnerRow13_10000_f 22;
  g5_groebnerRow14_10000_f 22;
  g5_groebnerRow15_10000_f 22;
  g5_groebnerRow16_10000_f 22;
  g5_groebnerRow17_10000_f 22;
  g5_groebnerRow18_10000_f 22;
  g5_groebnerRow19_00000_f 22;
  g5_groebnerRow20_00000_f 22;
  g5_groebnerRow21_00000_f 22;
  g5_groebnerRow11_00000_f 22;
  g5_groebnerRow12_00000_f 22;
  g5_groebnerRow13_00000_f 22;
  g5_groebnerRow14_00000_f 22;
  g5_groebnerRow15_00000_f 22;
  g5_groebnerRow16_00000_f 22;
  g5_groebnerRow17_00000_f 22;
  g5_groebnerRow18_00000_f 22;
  g5_sPolynomial23;
  g5_groebnerRow13_10000_f 23;
  g5_groebnerRow14_10000_f 23;
  g5_groebnerRow6_20000_f 23;
  g5_groebnerRow7_20000_f 23;
  g5_groebnerRow8_20000_f 23;
  g5_groebnerRow9_20000_f 23;
  g5_groebnerRow10_20000_f 23;
  g5_groebnerRow15_10000_f 23;
  g5_groebnerRow16_10000_f 23;
  g5_groebnerRow17_10000_f 23;
  g5_groebnerRow18_10000_f 23;
  g5_groebnerRow19_00000_f 23;
  g5_groebnerRow20_00000_f 23;
  g5_groebnerRow21_00000_f 23;
  g5_groebnerRow22_00000_f 23;
  g5_groebnerRow6_01000_f 23;
  g5_groebnerRow7_01000_f 23;
  g5_groebnerRow8_01000_f 23;
  g5_groebnerRow9_01000_f 23;
  g5_groebnerRow10_01000_f 23;
  g5_groebnerRow11_00000_f 23;
  g5_groebnerRow12_00000_f 23;
  g5_groebnerRow13_00000_f 23;
  g5_groebnerRow14_00000_f 23;
  g5_groebnerRow6_10000_f 23;
  g5_groebnerRow7_10000_f 23;
  g5_groebnerRow8_10000_f 23;
  g5_groebnerRow9_10000_f 23;
  g5_groebnerRow10_10000_f 23;
  g5_groebnerRow15_00000_f 23;
  g5_groebnerRow16_00000_f 23;
  g5_groebnerRow17_00000_f 23;
  g5_groebnerRow18_00000_f 23;
  g5_groebnerRow6_00000_f 23;
  g5_groebnerRow7_00000_f 23;
  g5_groebnerRow8_00000_f 23;
  g5_groebnerRow9_00000_f 23;
  g5_groebnerRow10_00000_f 23;
  g5_sPolynomial24;
  g5_groebnerRow12_10000_f 24;
  g5_groebnerRow13_10000_f 24;
  g5_groebnerRow14_10000_f 24;
  g5_groebnerRow15_10000_f 24;
  g5_groebnerRow16_10000_f 24;
  g5_groebnerRow17_10000_f 24;
  g5_groebnerRow18_10000_f 24;
  g5_groebnerRow19_00000_f 24;
  g5_groebnerRow20_00000_f 24;
  g5_groebnerRow21_00000_f 24;
  g5_groebnerRow22_00000_f 24;
  g5_groebnerRow23_00000_f 24;
  g5_groebnerRow11_00000_f 24;
  g5_groebnerRow12_00000_f 24;
  g5_groebnerRow13_00000_f 24;
  g5_groebnerRow14_00000_f 24;
  g5_groebnerRow15_00000_f 24;
  g5_groebnerRow16_00000_f 24;
  g5_groebnerRow17_00000_f 24;
  g5_groebnerRow18_00000_f 24;
  g5_sPolynomial25;
  g5_groebnerRow12_10000_f 25;
  g5_groebnerRow13_10000_f 25;
  g5_groebnerRow14_10000_f 25;
  g5_groebnerRow5_20000_f 25;
  g5_groebnerRow6_20000_f 25;
  g5_groebnerRow7_20000_f 25;
  g5_groebnerRow8_20000_f 25;
  g5_groebnerRow9_20000_f 25;
  g5_groebnerRow10_20000_f 25;
  g5_groebnerRow15_10000_f 25;
  g5_groebnerRow16_10000_f 25;
  g5_groebnerRow17_10000_f 25;
  g5_groebnerRow18_10000_f 25;
  g5_groebnerRow24_10000_f 25;
  g5_groebnerRow20_00000_f 25;
  g5_groebnerRow21_00000_f 25;
  g5_groebnerRow22_00000_f 25;
  g5_groebnerRow23_00000_f 25;
  g5_groebnerRow5_01000_f 25;
  g5_groebnerRow6_01000_f 25;
  g5_groebnerRow7_01000_f 25;
  g5_groebnerRow8_01000_f 25;
  g5_groebnerRow9_01000_f 25;
  g5_groebnerRow10_01000_f 25;
  g5_groebnerRow11_00000_f 25;
  g5_groebnerRow12_00000_f 25;
  g5_groebnerRow13_00000_f 25;
  g5_groebnerRow14_00000_f 25;
  g5_groebnerRow5_10000_f 25;
  g5_groebnerRow6_10000_f 25;
  g5_groebnerRow7_10000_f 25;
  g5_groebnerRow8_10000_f 25;
  g5_groebnerRow9_10000_f 25;
  g5_groebnerRow10_10000_f 25;
  g5_groebnerRow15_00000_f 25;
  g5_groebnerRow16_00000_f 25;
  g5_groebnerRow17_00000_f 25;
  g5_groebnerRow18_00000_f 25;
  g5_groebnerRow24_00000_f 25;
  g5_groebnerRow5_00000_f 25;
  g5_groebnerRow6_00000_f 25;
  g5_groebnerRow7_00000_f 25;
  g5_groebnerRow8_00000_f 25;
  g5_groebnerRow9_00000_f 25;
  g5_groebnerRow10_00000_f 25;
  g5_sPolynomial26;
  g5_groebnerRow11_10000_f 26;
  g5_groebnerRow12_10000_f 26;
  g5_groebnerRow13_10000_f 26;
  g5_groebnerRow14_10000_f 26;
  g5_groebnerRow8_20000_f 26;
  g5_groebnerRow9_20000_f 26;
  g5_groebnerRow10_20000_f 26;
  g5_groebnerRow15_10000_f 26;
  g5_groebnerRow16_10000_f 26;
  g5_groebnerRow17_10000_f 26;
  g5_groebnerRow18_10000_f 26;
  g5_groebnerRow24_10000_f 26;
  g5_groebnerRow25_10000_f 26;
  g5_groebnerRow21_00000_f 26;
  g5_groebnerRow22_00000_f 26;
  g5_groebnerRow23_00000_f 26;
  g5_groebnerRow8_01000_f 26;
  g5_groebnerRow9_01000_f 26;
  g5_groebnerRow10_01000_f 26;
  g5_groebnerRow11_00000_f 26;
  g5_groebnerRow12_00000_f 26;
  g5_groebnerRow13_00000_f 26;
  g5_groebnerRow14_00000_f 26;
  g5_groebnerRow8_10000_f 26;
  g5_groebnerRow9_10000_f 26;
  g5_groebnerRow10_10000_f 26;
  g5_groebnerRow15_00000_f 26;
  g5_groebnerRow16_00000_f 26;
  g5_groebnerRow17_00000_f 26;
  g5_groebnerRow18_00000_f 26;
  g5_groebnerRow24_00000_f 26;
  g5_groebnerRow25_00000_f 26;
  g5_groebnerRow8_00000_f 26;
  g5_groebnerRow9_00000_f 26;
  g5_groebnerRow10_00000_f 26;
  g5_sPolynomial27;
  g5_groebnerRow10_11000_f 27;
  g5_groebnerRow11_10000_f 27;
  g5_groebnerRow12_10000_f 27;
  g5_groebnerRow13_10000_f 27;
  g5_groebnerRow14_10000_f 27;
  g5_groebnerRow8_20000_f 27;
  g5_groebnerRow9_20000_f 27;
  g5_groebnerRow10_20000_f 27;
  g5_groebnerRow15_10000_f 27;
  g5_groebnerRow16_10000_f 27;
  g5_groebnerRow17_10000_f 27;
  g5_groebnerRow18_10000_f 27;
  g5_groebnerRow24_10000_f 27;
  g5_groebnerRow25_10000_f 27;
  g5_groebnerRow26_10000_f 27;
  g5_groebnerRow22_00000_f 27;
  g5_groebnerRow23_00000_f 27;
  g5_groebnerRow8_01000_f 27;
  g5_groebnerRow9_01000_f 27;
  g5_groebnerRow10_01000_f 27;
  g5_groebnerRow11_00000_f 27;
  g5_groebnerRow12_00000_f 27;
  g5_groebnerRow13_00000_f 27;
  g5_groebnerRow14_00000_f 27;
  g5_groebnerRow8_10000_f 27;
  g5_groebnerRow9_10000_f 27;
  g5_groebnerRow10_10000_f 27;
  g5_groebnerRow15_00000_f 27;
  g5_groebnerRow16_00000_f 27;
  g5_groebnerRow17_00000_f 27;
  g5_groebnerRow18_00000_f 27;
  g5_groebnerRow24_00000_f 27;
  g5_groebnerRow25_00000_f 27;
  g5_groebnerRow26_00000_f 27;
  g5_groebnerRow8_00000_f 27;
  g5_groebnerRow9_00000_f 27;
  g5_groebnerRow10_00000_f 27;
  g5_sPolynomial28;
  g5_groebnerRow10_11000_f 28;
  g5_groebnerRow11_10000_f 28;
  g5_groebnerRow12_10000_f 28;
  g5_groebnerRow13_10000_f 28;
  g5_groebnerRow14_10000_f 28;
  g5_groebnerRow6_20000_f 28;
  g5_groebnerRow7_20000_f 28;
  g5_groebnerRow8_20000_f 28;
  g5_groebnerRow9_20000_f 28;
  g5_groebnerRow10_20000_f 28;
  g5_groebnerRow15_10000_f 28;
  g5_groebnerRow16_10000_f 28;
  g5_groebnerRow17_10000_f 28;
  g5_groebnerRow18_10000_f 28;
  g5_groebnerRow24_10000_f 28;
  g5_groebnerRow25_10000_f 28;
  g5_groebnerRow26_10000_f 28;
  g5_groebnerRow27_10000_f 28;
  g5_groebnerRow23_00000_f 28;
  g5_groebnerRow6_01000_f 28;
  g5_groebnerRow7_01000_f 28;
  g5_groebnerRow8_01000_f 28;
  g5_groebnerRow9_01000_f 28;
  g5_groebnerRow10_01000_f 28;
  g5_groebnerRow11_00000_f 28;
  g5_groebnerRow12_00000_f 28;
  g5_groebnerRow13_00000_f 28;
  g5_groebnerRow14_00000_f 28;
  g5_groebnerRow6_10000_f 28;
  g5_groebnerRow7_10000_f 28;
  g5_groebnerRow8_10000_f 28;
  g5_groebnerRow9_10000_f 28;
  g5_groebnerRow10_10000_f 28;
  g5_groebnerRow15_00000_f 28;
  g5_groebnerRow16_00000_f 28;
  g5_groebnerRow17_00000_f 28;
  g5_groebnerRow18_00000_f 28;
  g5_groebnerRow24_00000_f 28;
  g5_groebnerRow25_00000_f 28;
  g5_groebnerRow26_00000_f 28;
  g5_groebnerRow27_00000_f 28;
  g5_groebnerRow6_00000_f 28;
  g5_groebnerRow7_00000_f 28;
  g5_groebnerRow8_00000_f 28;
  g5_groebnerRow9_00000_f 28;
  g5_groebnerRow10_00000_f 28;
  g5_sPolynomial29;
  g5_groebnerRow9_11000_f 29;
  g5_groebnerRow10_11000_f 29;
  g5_groebnerRow11_10000_f 29;
  g5_groebnerRow12_10000_f 29;
  g5_groebnerRow13_10000_f 29;
  g5_groebnerRow14_10000_f 29;
  g5_groebnerRow8_20000_f 29;
  g5_groebnerRow9_20000_f 29;
  g5_groebnerRow10_20000_f 29;
  g5_groebnerRow15_10000_f 29;
  g5_groebnerRow16_10000_f 29;
  g5_groebnerRow17_10000_f 29;
  g5_groebnerRow18_10000_f 29;
  g5_groebnerRow24_10000_f 29;
  g5_groebnerRow25_10000_f 29;
  g5_groebnerRow26_10000_f 29;
  g5_groebnerRow27_10000_f 29;
  g5_groebnerRow28_10000_f 29;
  g5_groebnerRow8_01000_f 29;
  g5_groebnerRow9_01000_f 29;
  g5_groebnerRow10_01000_f 29;
  g5_groebnerRow11_00000_f 29;
  g5_groebnerRow12_00000_f 29;
  g5_groebnerRow13_00000_f 29;
  g5_groebnerRow14_00000_f 29;
  g5_groebnerRow8_10000_f 29;
  g5_groebnerRow9_10000_f 29;
  g5_groebnerRow10_10000_f 29;
  g5_groebnerRow15_00000_f 29;
  g5_groebnerRow16_00000_f 29;
  g5_groebnerRow17_00000_f 29;
  g5_groebnerRow18_00000_f 29;
  g5_groebnerRow24_00000_f 29;
  g5_groebnerRow25_00000_f 29;
  g5_groebnerRow26_00000_f 29;
  g5_groebnerRow27_00000_f 29;
  g5_groebnerRow28_00000_f 29;
  g5_groebnerRow8_00000_f 29;
  g5_groebnerRow9_00000_f 29;
  g5_groebnerRow10_00000_f 29;
  g5_sPolynomial30;
  g5_groebnerRow9_11000_f 30;
  g5_groebnerRow10_11000_f 30;
  g5_groebnerRow18_00001_f 30;
  g5_groebnerRow12_10000_f 30;
  g5_groebnerRow13_10000_f 30;
  g5_groebnerRow14_10000_f 30;
  g5_groebnerRow5_20000_f 30;
  g5_groebnerRow6_20000_f 30;
  g5_groebnerRow7_20000_f 30;
  g5_groebnerRow8_20000_f 30;
  g5_groebnerRow9_20000_f 30;
  g5_groebnerRow10_20000_f 30;
  g5_groebnerRow24_01000_f 30;
  g5_groebnerRow16_10000_f 30;
  g5_groebnerRow17_10000_f 30;
  g5_groebnerRow18_10000_f 30;
  g5_groebnerRow24_10000_f 30;
  g5_groebnerRow25_10000_f 30;
  g5_groebnerRow26_10000_f 30;
  g5_groebnerRow27_10000_f 30;
  g5_groebnerRow28_10000_f 30;
  g5_groebnerRow5_01000_f 30;
  g5_groebnerRow6_01000_f 30;
  g5_groebnerRow7_01000_f 30;
  g5_groebnerRow8_01000_f 30;
  g5_groebnerRow9_01000_f 30;
  g5_groebnerRow10_01000_f 30;
  g5_groebnerRow29_01000_f 30;
  g5_groebnerRow12_00000_f 30;
  g5_groebnerRow13_00000_f 30;
  g5_groebnerRow14_00000_f 30;
  g5_groebnerRow5_10000_f 30;
  g5_groebnerRow6_10000_f 30;
  g5_groebnerRow7_10000_f 30;
  g5_groebnerRow8_10000_f 30;
  g5_groebnerRow9_10000_f 30;
  g5_groebnerRow10_10000_f 30;
  g5_groebnerRow29_10000_f 30;
  g5_groebnerRow16_00000_f 30;
  g5_groebnerRow17_00000_f 30;
  g5_groebnerRow18_00000_f 30;
  g5_groebnerRow24_00000_f 30;
  g5_groebnerRow25_00000_f 30;
  g5_groebnerRow26_00000_f 30;
  g5_groebnerRow27_00000_f 30;
  g5_groebnerRow28_00000_f 30;
  g5_groebnerRow5_00000_f 30;
  g5_groebnerRow6_00000_f 30;
  g5_groebnerRow7_00000_f 30;
  g5_groebnerRow8_00000_f 30;
  g5_groebnerRow9_00000_f 30;
  g5_groebnerRow10_00000_f 30;
  g5_groebnerRow29_00000_f 30;
  g5_sPolynomial31;
  g5_groebnerRow14_01000_f 31;
  g5_groebnerRow8_11000_f 31;
  g5_groebnerRow9_11000_f 31;
  g5_groebnerRow10_11000_f 31;
  g5_groebnerRow18_00001_f 31;
  g5_groebnerRow18_00010_f 31;
  g5_groebnerRow13_10000_f 31;
  g5_groebnerRow14_10000_f 31;
  g5_groebnerRow5_20000_f 31;
  g5_groebnerRow6_20000_f 31;
  g5_groebnerRow7_20000_f 31;
  g5_groebnerRow8_20000_f 31;
  g5_groebnerRow9_20000_f 31;
  g5_groebnerRow10_20000_f 31;
  g5_groebnerRow24_01000_f 31;
  g5_groebnerRow25_01000_f 31;
  g5_groebnerRow17_10000_f 31;
  g5_groebnerRow18_10000_f 31;
  g5_groebnerRow24_10000_f 31;
  g5_groebnerRow25_10000_f 31;
  g5_groebnerRow26_10000_f 31;
  g5_groebnerRow27_10000_f 31;
  g5_groebnerRow28_10000_f 31;
  g5_groebnerRow5_01000_f 31;
  g5_groebnerRow6_01000_f 31;
  g5_groebnerRow7_01000_f 31;
  g5_groebnerRow8_01000_f 31;
  g5_groebnerRow9_01000_f 31;
  g5_groebnerRow10_01000_f 31;
  g5_groebnerRow29_01000_f 31;
  g5_groebnerRow30_01000_f 31;
  g5_groebnerRow13_00000_f 31;
  g5_groebnerRow14_00000_f 31;
  g5_groebnerRow5_10000_f 31;
  g5_groebnerRow6_10000_f 31;
  g5_groebnerRow7_10000_f 31;
  g5_groebnerRow8_10000_f 31;
  g5_groebnerRow9_10000_f 31;
  g5_groebnerRow10_10000_f 31;
  g5_groebnerRow29_10000_f 31;
  g5_groebnerRow30_10000_f 31;
  g5_groebnerRow17_00000_f 31;
  g5_groebnerRow18_00000_f 31;
  g5_groebnerRow24_00000_f 31;
  g5_groebnerRow25_00000_f 31;
  g5_groebnerRow26_00000_f 31;
  g5_groebnerRow27_00000_f 31;
  g5_groebnerRow28_00000_f 31;
  g5_groebnerRow5_00000_f 31;
  g5_groebnerRow6_00000_f 31;
  g5_groebnerRow7_00000_f 31;
  g5_groebnerRow8_00000_f 31;
  g5_groebnerRow9_00000_f 31;
  g5_groebnerRow10_00000_f 31;
  g5_groebnerRow29_00000_f 31;
  g5_groebnerRow30_00000_f 31;
  g5_sPolynomial32;
  g5_groebnerRow14_00100_f 32;
  g5_groebnerRow14_01000_f 32;
  g5_groebnerRow6_11000_f 32;
  g5_groebnerRow7_11000_f 32;
  g5_groebnerRow8_11000_f 32;
  g5_groebnerRow9_11000_f 32;
  g5_groebnerRow10_11000_f 32;
  g5_groebnerRow18_00001_f 32;
  g5_groebnerRow18_00010_f 32;
  g5_groebnerRow18_00100_f 32;
  g5_groebnerRow14_10000_f 32;
  g5_groebnerRow5_20000_f 32;
  g5_groebnerRow6_20000_f 32;
  g5_groebnerRow7_20000_f 32;
  g5_groebnerRow8_20000_f 32;
  g5_groebnerRow9_20000_f 32;
  g5_groebnerRow10_20000_f 32;
  g5_groebnerRow24_01000_f 32;
  g5_groebnerRow25_01000_f 32;
  g5_groebnerRow26_01000_f 32;
  g5_groebnerRow18_10000_f 32;
  g5_groebnerRow24_10000_f 32;
  g5_groebnerRow25_10000_f 32;
  g5_groebnerRow26_10000_f 32;
  g5_groebnerRow27_10000_f 32;
  g5_groebnerRow28_10000_f 32;
  g5_groebnerRow5_01000_f 32;
  g5_groebnerRow6_01000_f 32;
  g5_groebnerRow7_01000_f 32;
  g5_groebnerRow8_01000_f 32;
  g5_groebnerRow9_01000_f 32;
  g5_groebnerRow10_01000_f 32;
  g5_groebnerRow29_01000_f 32;
  g5_groebnerRow30_01000_f 32;
  g5_groebnerRow31_01000_f 32;
  g5_groebnerRow14_00000_f 32;
  g5_groebnerRow5_10000_f 32;
  g5_groebnerRow6_10000_f 32;
  g5_groebnerRow7_10000_f 32;
  g5_groebnerRow8_10000_f 32;
  g5_groebnerRow9_10000_f 32;
  g5_groebnerRow10_10000_f 32;
  g5_groebnerRow29_10000_f 32;
  g5_groebnerRow30_10000_f 32;
  g5_groebnerRow31_10000_f 32;
  g5_groebnerRow18_00000_f 32;
  g5_groebnerRow24_00000_f 32;
  g5_groebnerRow25_00000_f 32;
  g5_groebnerRow26_00000_f 32;
  g5_groebnerRow27_00000_f 32;
  g5_groebnerRow28_00000_f 32;
  g5_groebnerRow5_00000_f 32;
  g5_groebnerRow6_00000_f 32;
  g5_groebnerRow7_00000_f 32;
  g5_groebnerRow8_00000_f 32;
  g5_groebnerRow9_00000_f 32;
  g5_groebnerRow10_00000_f 32;
  g5_groebnerRow29_00000_f 32;
  g5_groebnerRow30_00000_f 32;
  g5_groebnerRow31_00000_f 32;
  g5_sPolynomial33;
  g5_groebnerRow24_00000_f 33;
  g5_groebnerRow25_00000_f 33;
  g5_groebnerRow26_00000_f 33;
  g5_groebnerRow27_00000_f 33;
  g5_groebnerRow28_00000_f 33;
  g5_groebnerRow29_00000_f 33;
  g5_groebnerRow30_00000_f 33;
  g5_groebnerRow31_00000_f 33;
  g5_groebnerRow32_00000_f 33;
  g5_sPolynomial34;
  g5_groebnerRow32_10000_f 34;
  g5_groebnerRow33_10000_f 34;
  g5_groebnerRow25_00000_f 34;
  g5_groebnerRow26_00000_f 34;
  g5_groebnerRow27_00000_f 34;
  g5_groebnerRow28_00000_f 34;
  g5_groebnerRow29_00000_f 34;
  g5_groebnerRow30_00000_f 34;
  g5_groebnerRow31_00000_f 34;
  g5_groebnerRow32_00000_f 34;
  g5_groebnerRow33_00000_f 34;
  g5_sPolynomial35;
  g5_groebnerRow31_10000_f 35;
  g5_groebnerRow32_10000_f 35;
  g5_groebnerRow33_10000_f 35;
  g5_groebnerRow34_10000_f 35;
  g5_groebnerRow26_00000_f 35;
  g5_groebnerRow27_00000_f 35;
  g5_groebnerRow28_00000_f 35;
  g5_groebnerRow29_00000_f 35;
  g5_groebnerRow30_00000_f 35;
  g5_groebnerRow31_00000_f 35;
  g5_groebnerRow32_00000_f 35;
  g5_groebnerRow33_00000_f 35;
  g5_groebnerRow34_00000_f 35;
  g5_sPolynomial36;
  g5_groebnerRow30_10000_f 36;
  g5_groebnerRow31_10000_f 36;
  g5_groebnerRow32_10000_f 36;
  g5_groebnerRow33_10000_f 36;
  g5_groebnerRow34_10000_f 36;
  g5_groebnerRow35_10000_f 36;
  g5_groebnerRow27_00000_f 36;
  g5_groebnerRow28_00000_f 36;
  g5_groebnerRow29_00000_f 36;
  g5_groebnerRow30_00000_f 36;
  g5_groebnerRow31_00000_f 36;
  g5_groebnerRow32_00000_f 36;
  g5_groebnerRow33_00000_f 36;
  g5_groebnerRow34_00000_f 36;
  g5_groebnerRow35_00000_f 36;
  g5_sPolynomial37;
  g5_groebnerRow29_10000_f 37;
  g5_groebnerRow30_10000_f 37;
  g5_groebnerRow31_10000_f 37;
  g5_groebnerRow32_10000_f 37;
  g5_groebnerRow33_10000_f 37;
  g5_groebnerRow34_10000_f 37;
  g5_groebnerRow35_10000_f 37;
  g5_groebnerRow36_10000_f 37;
  g5_groebnerRow28_00000_f 37;
  g5_groebnerRow29_00000_f 37;
  g5_groebnerRow30_00000_f 37;
  g5_groebnerRow31_00000_f 37;
  g5_groebnerRow32_00000_f 37;
  g5_groebnerRow33_00000_f 37;
  g5_groebnerRow34_00000_f 37;
  g5_groebnerRow35_00000_f 37;
  g5_groebnerRow36_00000_f 37;
  g5_sPolynomial38;
  g5_groebnerRow32_01000_f 38;
  g5_groebnerRow29_10000_f 38;
  g5_groebnerRow30_10000_f 38;
  g5_groebnerRow31_10000_f 38;
  g5_groebnerRow32_10000_f 38;
  g5_groebnerRow33_10000_f 38;
  g5_groebnerRow34_10000_f 38;
  g5_groebnerRow35_10000_f 38;
  g5_groebnerRow36_10000_f 38;
  g5_groebnerRow37_10000_f 38;
  g5_groebnerRow29_00000_f 38;
  g5_groebnerRow30_00000_f 38;
  g5_groebnerRow31_00000_f 38;
  g5_groebnerRow32_00000_f 38;
  g5_groebnerRow33_00000_f 38;
  g5_groebnerRow34_00000_f 38;
  g5_groebnerRow35_00000_f 38;
  g5_groebnerRow36_00000_f 38;
  g5_groebnerRow37_00000_f 38;
  g5_sPolynomial39;
  g5_groebnerRow32_01000_f 39;
  g5_groebnerRow35_00001_f 39;
  g5_groebnerRow9_10000_f 39;
  g5_groebnerRow10_10000_f 39;
  g5_groebnerRow36_00001_f 39;
  g5_groebnerRow30_10000_f 39;
  g5_groebnerRow31_10000_f 39;
  g5_groebnerRow32_10000_f 39;
  g5_groebnerRow37_00001_f 39;
  g5_groebnerRow34_10000_f 39;
  g5_groebnerRow35_10000_f 39;
  g5_groebnerRow36_10000_f 39;
  g5_groebnerRow37_10000_f 39;
  g5_groebnerRow38_00001_f 39;
  g5_groebnerRow38_00010_f 39;
  g5_groebnerRow7_00000_f 39;
  g5_groebnerRow38_00100_f 39;
  g5_groebnerRow9_00000_f 39;
  g5_groebnerRow10_00000_f 39;
  g5_groebnerRow38_01000_f 39;
  g5_groebnerRow30_00000_f 39;
  g5_groebnerRow31_00000_f 39;
  g5_groebnerRow32_00000_f 39;
  g5_groebnerRow38_10000_f 39;
  g5_groebnerRow34_00000_f 39;
  g5_groebnerRow35_00000_f 39;
  g5_groebnerRow36_00000_f 39;
  g5_groebnerRow37_00000_f 39;
  g5_groebnerRow38_00000_f 39;
  g5_sPolynomial40;
  g5_groebnerRow31_01000_f 40;
  g5_groebnerRow32_01000_f 40;
  g5_groebnerRow36_00001_f 40;
  g5_groebnerRow36_00010_f 40;
  g5_groebnerRow31_10000_f 40;
  g5_groebnerRow32_10000_f 40;
  g5_groebnerRow37_00001_f 40;
  g5_groebnerRow37_00010_f 40;
  g5_groebnerRow35_10000_f 40;
  g5_groebnerRow36_10000_f 40;
  g5_groebnerRow37_10000_f 40;
  g5_groebnerRow38_00001_f 40;
  g5_groebnerRow38_00010_f 40;
  g5_groebnerRow39_00010_f 40;
  g5_groebnerRow38_00100_f 40;
  g5_groebnerRow39_00100_f 40;
  g5_groebnerRow10_00000_f 40;
  g5_groebnerRow38_01000_f 40;
  g5_groebnerRow39_01000_f 40;
  g5_groebnerRow31_00000_f 40;
  g5_groebnerRow32_00000_f 40;
  g5_groebnerRow38_10000_f 40;
  g5_groebnerRow39_10000_f 40;
  g5_groebnerRow35_00000_f 40;
  g5_groebnerRow36_00000_f 40;
  g5_groebnerRow37_00000_f 40;
  g5_groebnerRow38_00000_f 40;
  g5_groebnerRow39_00000_f 40;
  g5_sPolynomial41;
  g5_groebnerRow32_00100_f 41;
  g5_groebnerRow32_01000_f 41;
  g5_groebnerRow38_10010_f 41;
  g5_groebnerRow39_10010_f 41;
  g5_groebnerRow38_10100_f 41;
  g5_groebnerRow39_10100_f 41;
  g5_groebnerRow40_10100_f 41;
  g5_groebnerRow36_00001_f 41;
  g5_groebnerRow36_00010_f 41;
  g5_groebnerRow36_00100_f 41;
  g5_groebnerRow32_10000_f 41;
  g5_groebnerRow37_00001_f 41;
  g5_groebnerRow37_00010_f 41;
  g5_groebnerRow37_00100_f 41;
  g5_groebnerRow36_10000_f 41;
  g5_groebnerRow37_10000_f 41;
  g5_groebnerRow38_00001_f 41;
  g5_groebnerRow38_00010_f 41;
  g5_groebnerRow39_00010_f 41;
  g5_groebnerRow38_00100_f 41;
  g5_groebnerRow39_00100_f 41;
  g5_groebnerRow40_00100_f 41;
  g5_groebnerRow38_01000_f 41;
  g5_groebnerRow39_01000_f 41;
  g5_groebnerRow40_01000_f 41;
  g5_groebnerRow32_00000_f 41;
  g5_groebnerRow38_10000_f 41;
  g5_groebnerRow39_10000_f 41;
  g5_groebnerRow40_10000_f 41;
  g5_groebnerRow36_00000_f 41;
  g5_groebnerRow37_00000_f 41;
  g5_groebnerRow38_00000_f 41;
  g5_groebnerRow39_00000_f 41;
  g5_groebnerRow40_00000_f 41;
  g5_sPolynomial42;
  g5_groebnerRow39_02000_f 42;
  g5_groebnerRow40_02000_f 42;
  g5_groebnerRow41_02000_f 42;
  g5_groebnerRow38_11000_f 42;
  g5_groebnerRow39_11000_f 42;
  g5_groebnerRow40_11000_f 42;
  g5_groebnerRow41_11000_f 42;
  g5_groebnerRow37_00001_f 42;
  g5_groebnerRow37_00010_f 42;
  g5_groebnerRow37_00100_f 42;
  g5_groebnerRow37_01000_f 42;
  g5_groebnerRow37_10000_f 42;
  g5_groebnerRow38_00001_f 42;
  g5_groebnerRow38_00010_f 42;
  g5_groebnerRow39_00010_f 42;
  g5_groebnerRow38_00100_f 42;
  g5_groebnerRow39_00100_f 42;
  g5_groebnerRow40_00100_f 42;
  g5_groebnerRow38_01000_f 42;
  g5_groebnerRow39_01000_f 42;
  g5_groebnerRow40_01000_f 42;
  g5_groebnerRow41_01000_f 42;
  g5_groebnerRow38_10000_f 42;
  g5_groebnerRow39_10000_f 42;
  g5_groebnerRow40_10000_f 42;
  g5_groebnerRow41_10000_f 42;
  g5_groebnerRow37_00000_f 42;
  g5_groebnerRow38_00000_f 42;
  g5_groebnerRow39_00000_f 42;
  g5_groebnerRow40_00000_f 42;
  g5_groebnerRow41_00000_f 42;
  g5_sPolynomial43;
  g5_groebnerRow38_11000_f 43;
  g5_groebnerRow39_11000_f 43;
  g5_groebnerRow40_11000_f 43;
  g5_groebnerRow41_11000_f 43;
  g5_groebnerRow38_20000_f 43;
  g5_groebnerRow39_20000_f 43;
  g5_groebnerRow40_20000_f 43;
  g5_groebnerRow41_20000_f 43;
  g5_groebnerRow42_20000_f 43;
  g5_groebnerRow38_01000_f 43;
  g5_groebnerRow39_01000_f 43;
  g5_groebnerRow40_01000_f 43;
  g5_groebnerRow41_01000_f 43;
  g5_groebnerRow38_10000_f 43;
  g5_groebnerRow39_10000_f 43;
  g5_groebnerRow40_10000_f 43;
  g5_groebnerRow41_10000_f 43;
  g5_groebnerRow42_10000_f 43;
  g5_groebnerRow38_00000_f 43;
  g5_groebnerRow39_00000_f 43;
  g5_groebnerRow40_00000_f 43;
  g5_groebnerRow41_00000_f 43;
  g5_groebnerRow42_00000_f 43].

