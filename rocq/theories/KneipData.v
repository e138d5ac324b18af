(** Generated by tools/gen_kneip.py from src/relative_pose/modules/fivept_kneip/:
    the coefficient rows, the sPolynomial and groebnerRow functions, the inline
    reductions and the statement sequence of computeBasis.  Definitions only. *)
From Coq Require Import Reals List.
From Verif Require Import Lin GbModel KneipOps.
Import ListNotations.

(** exponents of the monomial of each column, in the order r22 r21 r20 r12 r11
    r10 r02 r01 r00 *)
Definition kn_mon : list (list nat) := [
  [1;1;0;1;0;0;0;0;0]; [0;2;0;1;0;0;0;0;0]; [1;0;1;1;0;0;0;0;0]; [0;1;1;1;0;0;0;0;0]; [0;0;2;1;0;0;0;0;0]; [0;1;0;2;0;0;0;0;0]; [0;0;1;2;0;0;0;0;0];
  [2;0;0;0;1;0;0;0;0]; [1;1;0;0;1;0;0;0;0]; [0;2;0;0;1;0;0;0;0]; [1;0;1;0;1;0;0;0;0]; [0;1;1;0;1;0;0;0;0]; [0;0;2;0;1;0;0;0;0]; [1;0;0;1;1;0;0;0;0];
  [0;1;0;1;1;0;0;0;0]; [0;0;1;1;1;0;0;0;0]; [1;0;0;0;2;0;0;0;0]; [0;1;0;0;2;0;0;0;0]; [0;0;1;0;2;0;0;0;0]; [2;0;0;0;0;1;0;0;0]; [1;1;0;0;0;1;0;0;0];
  [0;2;0;0;0;1;0;0;0]; [1;0;1;0;0;1;0;0;0]; [0;1;1;0;0;1;0;0;0]; [0;0;2;0;0;1;0;0;0]; [1;0;0;1;0;1;0;0;0]; [0;1;0;1;0;1;0;0;0]; [0;0;1;1;0;1;0;0;0];
  [1;0;0;0;1;1;0;0;0]; [0;1;0;0;1;1;0;0;0]; [0;0;1;0;1;1;0;0;0]; [0;0;0;1;1;1;0;0;0]; [0;0;0;0;2;1;0;0;0]; [1;0;0;0;0;2;0;0;0]; [0;1;0;0;0;2;0;0;0];
  [0;0;1;0;0;2;0;0;0]; [0;0;0;1;0;2;0;0;0]; [0;0;0;0;1;2;0;0;0]; [0;0;0;0;0;3;0;0;0]; [1;1;0;0;0;0;1;0;0]; [0;2;0;0;0;0;1;0;0]; [1;0;1;0;0;0;1;0;0];
  [0;1;1;0;0;0;1;0;0]; [0;0;2;0;0;0;1;0;0]; [0;1;0;1;0;0;1;0;0]; [0;0;1;1;0;0;1;0;0]; [1;0;0;0;1;0;1;0;0]; [0;1;0;0;1;0;1;0;0]; [0;0;1;0;1;0;1;0;0];
  [0;0;0;1;1;0;1;0;0]; [0;0;0;0;2;0;1;0;0]; [1;0;0;0;0;1;1;0;0]; [0;1;0;0;0;1;1;0;0]; [0;0;1;0;0;1;1;0;0]; [0;0;0;1;0;1;1;0;0]; [0;0;0;0;1;1;1;0;0];
  [0;0;0;0;0;2;1;0;0]; [0;1;0;0;0;0;2;0;0]; [0;0;1;0;0;0;2;0;0]; [0;0;0;0;1;0;2;0;0]; [0;0;0;0;0;1;2;0;0]; [2;0;0;0;0;0;0;1;0]; [1;1;0;0;0;0;0;1;0];
  [0;2;0;0;0;0;0;1;0]; [1;0;1;0;0;0;0;1;0]; [0;1;1;0;0;0;0;1;0]; [0;0;2;0;0;0;0;1;0]; [1;0;0;1;0;0;0;1;0]; [0;1;0;1;0;0;0;1;0]; [0;0;1;1;0;0;0;1;0];
  [0;0;0;2;0;0;0;1;0]; [1;0;0;0;1;0;0;1;0]; [0;1;0;0;1;0;0;1;0]; [0;0;1;0;1;0;0;1;0]; [0;0;0;1;1;0;0;1;0]; [0;0;0;0;2;0;0;1;0]; [1;0;0;0;0;1;0;1;0];
  [0;1;0;0;0;1;0;1;0]; [0;0;1;0;0;1;0;1;0]; [0;0;0;1;0;1;0;1;0]; [0;0;0;0;1;1;0;1;0]; [0;0;0;0;0;2;0;1;0]; [1;0;0;0;0;0;1;1;0]; [0;1;0;0;0;0;1;1;0];
  [0;0;1;0;0;0;1;1;0]; [0;0;0;1;0;0;1;1;0]; [0;0;0;0;1;0;1;1;0]; [0;0;0;0;0;1;1;1;0]; [0;0;0;0;0;0;2;1;0]; [1;0;0;0;0;0;0;2;0]; [0;1;0;0;0;0;0;2;0];
  [0;0;1;0;0;0;0;2;0]; [0;0;0;1;0;0;0;2;0]; [0;0;0;0;1;0;0;2;0]; [0;0;0;0;0;1;0;2;0]; [0;0;0;0;0;0;1;2;0]; [0;0;0;0;0;0;0;3;0]; [2;0;0;0;0;0;0;0;1];
  [1;1;0;0;0;0;0;0;1]; [0;2;0;0;0;0;0;0;1]; [1;0;1;0;0;0;0;0;1]; [0;1;1;0;0;0;0;0;1]; [0;0;2;0;0;0;0;0;1]; [1;0;0;1;0;0;0;0;1]; [0;1;0;1;0;0;0;0;1];
  [0;0;1;1;0;0;0;0;1]; [0;0;0;2;0;0;0;0;1]; [1;0;0;0;1;0;0;0;1]; [0;1;0;0;1;0;0;0;1]; [0;0;1;0;1;0;0;0;1]; [0;0;0;1;1;0;0;0;1]; [0;0;0;0;2;0;0;0;1];
  [1;0;0;0;0;1;0;0;1]; [0;1;0;0;0;1;0;0;1]; [0;0;1;0;0;1;0;0;1]; [0;0;0;1;0;1;0;0;1]; [0;0;0;0;1;1;0;0;1]; [0;0;0;0;0;2;0;0;1]; [1;0;0;0;0;0;1;0;1];
  [0;1;0;0;0;0;1;0;1]; [0;0;1;0;0;0;1;0;1]; [0;0;0;1;0;0;1;0;1]; [0;0;0;0;1;0;1;0;1]; [0;0;0;0;0;1;1;0;1]; [0;0;0;0;0;0;2;0;1]; [1;0;0;0;0;0;0;1;1];
  [0;1;0;0;0;0;0;1;1]; [0;0;1;0;0;0;0;1;1]; [0;0;0;1;0;0;0;1;1]; [0;0;0;0;1;0;0;1;1]; [0;0;0;0;0;1;0;1;1]; [0;0;0;0;0;0;1;1;1]; [0;0;0;0;0;0;0;2;1];
  [1;0;0;0;0;0;0;0;2]; [0;1;0;0;0;0;0;0;2]; [0;0;1;0;0;0;0;0;2]; [0;0;0;1;0;0;0;0;2]; [0;0;0;0;1;0;0;0;2]; [0;0;0;0;0;1;0;0;2]; [0;0;0;0;0;0;1;0;2];
  [0;0;0;0;0;0;0;1;2]; [0;0;0;0;0;0;0;0;3]; [2;0;0;0;0;0;0;0;0]; [1;1;0;0;0;0;0;0;0]; [0;2;0;0;0;0;0;0;0]; [1;0;1;0;0;0;0;0;0]; [0;1;1;0;0;0;0;0;0];
  [0;0;2;0;0;0;0;0;0]; [1;0;0;1;0;0;0;0;0]; [0;1;0;1;0;0;0;0;0]; [0;0;1;1;0;0;0;0;0]; [0;0;0;2;0;0;0;0;0]; [1;0;0;0;1;0;0;0;0]; [0;1;0;0;1;0;0;0;0];
  [0;0;1;0;1;0;0;0;0]; [0;0;0;1;1;0;0;0;0]; [0;0;0;0;2;0;0;0;0]; [1;0;0;0;0;1;0;0;0]; [0;1;0;0;0;1;0;0;0]; [0;0;1;0;0;1;0;0;0]; [0;0;0;1;0;1;0;0;0];
  [0;0;0;0;1;1;0;0;0]; [0;0;0;0;0;2;0;0;0]; [1;0;0;0;0;0;1;0;0]; [0;1;0;0;0;0;1;0;0]; [0;0;1;0;0;0;1;0;0]; [0;0;0;1;0;0;1;0;0]; [0;0;0;0;1;0;1;0;0];
  [0;0;0;0;0;1;1;0;0]; [0;0;0;0;0;0;2;0;0]; [1;0;0;0;0;0;0;1;0]; [0;1;0;0;0;0;0;1;0]; [0;0;1;0;0;0;0;1;0]; [0;0;0;1;0;0;0;1;0]; [0;0;0;0;1;0;0;1;0];
  [0;0;0;0;0;1;0;1;0]; [0;0;0;0;0;0;1;1;0]; [0;0;0;0;0;0;0;2;0]; [1;0;0;0;0;0;0;0;1]; [0;1;0;0;0;0;0;0;1]; [0;0;1;0;0;0;0;0;1]; [0;0;0;1;0;0;0;0;1];
  [0;0;0;0;1;0;0;0;1]; [0;0;0;0;0;1;0;0;1]; [0;0;0;0;0;0;1;0;1]; [0;0;0;0;0;0;0;1;1]; [0;0;0;0;0;0;0;0;2]; [1;0;0;0;0;0;0;0;0]; [0;1;0;0;0;0;0;0;0];
  [0;0;1;0;0;0;0;0;0]; [0;0;0;1;0;0;0;0;0]; [0;0;0;0;1;0;0;0;0]; [0;0;0;0;0;1;0;0;0]; [0;0;0;0;0;0;1;0;0]; [0;0;0;0;0;0;0;1;0]; [0;0;0;0;0;0;0;0;1];
  [0;0;0;0;0;0;0;0;0]].
(** initMatrix, src/relative_pose/modules/fivept_kneip/init.cpp 159-227 *)
Definition kn_const : list (nat * nat * R) := [
  (10,169,1%R); (10,177,1%R); (10,186,1%R); (10,196,(-1)%R); (11,166,1%R); (11,174,1%R); (11,183,1%R); (12,163,1%R); (12,171,1%R); (12,180,1%R);
  (13,151,1%R); (13,156,1%R); (13,162,1%R); (13,196,(-1)%R); (14,148,1%R); (14,153,1%R); (14,159,1%R); (15,142,1%R); (15,144,1%R); (15,147,1%R);
  (15,196,(-1)%R); (16,154,(-1)%R); (16,158,1%R); (16,193,(-1)%R); (17,172,1%R); (17,179,(-1)%R); (17,190,(-1)%R); (18,175,(-1)%R); (18,182,1%R);
  (18,187,(-1)%R); (19,149,(-1)%R); (19,152,1%R); (19,195,(-1)%R); (20,164,1%R); (20,170,(-1)%R); (20,192,(-1)%R); (21,167,(-1)%R); (21,173,1%R);
  (21,189,(-1)%R); (22,147,1%R); (22,162,1%R); (22,186,1%R); (22,196,(-1)%R); (23,146,1%R); (23,161,1%R); (23,185,1%R); (24,145,1%R); (24,160,1%R);
  (24,184,1%R); (25,144,1%R); (25,156,1%R); (25,177,1%R); (25,196,(-1)%R); (26,143,1%R); (26,155,1%R); (26,176,1%R); (27,168,1%R); (27,181,(-1)%R);
  (27,188,(-1)%R); (28,150,1%R); (28,157,(-1)%R); (28,194,(-1)%R); (29,165,(-1)%R); (29,178,1%R); (29,191,(-1)%R)].
(** sPolynomial30 ... sPolynomial65, src/relative_pose/modules/fivept_kneip/spolynomials.cpp *)
(** sPolynomial30, spolynomials.cpp 36 *)
Definition kn_s30 := GS 30 0 0 1 0 [
  (1,Some 1,Some 1); (2,Some 2,Some 2); (3,Some 3,Some 3); (4,Some 4,Some 4); (5,Some 5,Some 5); (6,Some 6,Some 6); (8,Some 8,Some 8);
  (10,Some 10,Some 10); (11,Some 11,Some 11); (12,Some 12,Some 12); (13,Some 13,Some 13); (14,Some 14,Some 14); (15,Some 15,Some 15);
  (16,Some 16,Some 16); (18,Some 18,Some 18); (19,Some 19,Some 19); (20,Some 20,Some 20); (21,Some 21,Some 21); (22,Some 22,Some 22);
  (23,Some 23,Some 23); (25,Some 25,Some 25); (26,Some 26,Some 26); (27,Some 27,Some 27); (28,Some 28,Some 28); (29,Some 29,Some 29);
  (30,Some 30,Some 30); (33,Some 33,Some 33); (34,Some 34,Some 34); (39,Some 39,Some 39); (40,Some 40,Some 40); (41,Some 41,Some 41);
  (42,Some 42,Some 42); (43,Some 43,Some 43); (44,Some 44,Some 44); (45,Some 45,Some 45); (46,Some 46,Some 46); (47,Some 47,Some 47);
  (48,Some 48,Some 48); (49,Some 49,Some 49); (50,Some 50,Some 50); (51,Some 51,Some 51); (52,Some 52,Some 52); (53,Some 53,Some 53);
  (54,Some 54,Some 54); (55,Some 55,Some 55); (56,Some 56,Some 56); (57,Some 57,Some 57); (58,Some 58,Some 58); (59,Some 59,Some 59);
  (60,Some 60,Some 60); (61,Some 61,Some 61); (62,Some 62,Some 62); (64,Some 64,Some 64); (65,Some 65,Some 65); (66,Some 66,Some 66);
  (67,Some 67,Some 67); (68,Some 68,Some 68); (69,Some 69,Some 69); (70,Some 70,Some 70); (71,Some 71,Some 71); (73,Some 73,Some 73);
  (74,Some 74,Some 74); (76,Some 76,Some 76); (77,Some 77,Some 77); (78,Some 78,Some 78); (79,Some 79,Some 79); (80,Some 80,Some 80);
  (81,Some 81,Some 81); (82,Some 82,Some 82); (83,Some 83,Some 83); (84,Some 84,Some 84); (85,Some 85,Some 85); (86,Some 86,Some 86);
  (87,Some 87,Some 87); (89,Some 89,Some 89); (91,Some 91,Some 91); (92,Some 92,Some 92); (94,Some 94,Some 94); (97,Some 97,Some 97);
  (98,Some 98,Some 98); (99,Some 99,Some 99); (100,Some 100,Some 100); (101,Some 101,Some 101); (103,Some 103,Some 103); (104,Some 104,Some 104);
  (105,Some 105,Some 105); (106,Some 106,Some 106); (107,Some 107,Some 107); (108,Some 108,Some 108); (109,Some 109,Some 109);
  (110,Some 110,Some 110); (111,Some 111,Some 111); (112,Some 112,Some 112); (113,Some 113,Some 113); (115,Some 115,Some 115);
  (116,Some 116,Some 116); (118,Some 118,Some 118); (119,Some 119,Some 119); (120,Some 120,Some 120); (121,Some 121,Some 121);
  (122,Some 122,Some 122); (123,Some 123,Some 123); (125,Some 125,Some 125); (126,Some 126,Some 126); (127,Some 127,Some 127);
  (128,Some 128,Some 128); (129,Some 129,Some 129); (130,Some 130,Some 130); (133,Some 133,Some 133); (134,Some 134,Some 134);
  (136,Some 136,Some 136); (137,Some 137,Some 137)].
(** sPolynomial31, spolynomials.cpp 153 *)
Definition kn_s31 := GS 31 1 0 2 0 [
  (1,Some 1,Some 1); (2,Some 2,Some 2); (3,Some 3,Some 3); (4,Some 4,Some 4); (5,Some 5,Some 5); (6,Some 6,Some 6); (8,Some 8,Some 8);
  (10,Some 10,Some 10); (11,Some 11,Some 11); (12,Some 12,Some 12); (13,Some 13,Some 13); (14,Some 14,Some 14); (15,Some 15,Some 15);
  (16,Some 16,Some 16); (18,Some 18,Some 18); (19,Some 19,Some 19); (20,Some 20,Some 20); (21,Some 21,Some 21); (22,Some 22,Some 22);
  (23,Some 23,Some 23); (25,Some 25,Some 25); (26,Some 26,Some 26); (27,Some 27,Some 27); (28,Some 28,Some 28); (29,Some 29,Some 29);
  (30,Some 30,Some 30); (33,Some 33,Some 33); (34,Some 34,Some 34); (39,Some 39,Some 39); (40,Some 40,Some 40); (41,Some 41,Some 41);
  (42,Some 42,Some 42); (43,Some 43,Some 43); (44,Some 44,Some 44); (45,Some 45,Some 45); (46,Some 46,Some 46); (47,Some 47,Some 47);
  (48,Some 48,Some 48); (49,Some 49,Some 49); (50,Some 50,Some 50); (51,Some 51,Some 51); (52,Some 52,Some 52); (53,Some 53,Some 53);
  (54,Some 54,Some 54); (55,Some 55,Some 55); (56,Some 56,Some 56); (57,Some 57,Some 57); (58,Some 58,Some 58); (59,Some 59,Some 59);
  (60,Some 60,Some 60); (61,Some 61,Some 61); (62,Some 62,Some 62); (64,Some 64,Some 64); (65,Some 65,Some 65); (66,Some 66,Some 66);
  (67,Some 67,Some 67); (68,Some 68,Some 68); (69,Some 69,Some 69); (70,Some 70,Some 70); (71,Some 71,Some 71); (73,Some 73,Some 73);
  (74,Some 74,Some 74); (76,Some 76,Some 76); (77,Some 77,Some 77); (78,Some 78,Some 78); (79,Some 79,Some 79); (80,Some 80,Some 80);
  (81,Some 81,Some 81); (82,Some 82,Some 82); (83,Some 83,Some 83); (84,Some 84,Some 84); (85,Some 85,Some 85); (86,Some 86,Some 86);
  (87,Some 87,Some 87); (89,Some 89,Some 89); (91,Some 91,Some 91); (92,Some 92,Some 92); (94,Some 94,Some 94); (97,Some 97,Some 97);
  (98,Some 98,Some 98); (99,Some 99,Some 99); (100,Some 100,Some 100); (101,Some 101,Some 101); (103,Some 103,Some 103); (104,Some 104,Some 104);
  (105,Some 105,Some 105); (106,Some 106,Some 106); (107,Some 107,Some 107); (108,Some 108,Some 108); (109,Some 109,Some 109);
  (110,Some 110,Some 110); (111,Some 111,Some 111); (112,Some 112,Some 112); (113,Some 113,Some 113); (115,Some 115,Some 115);
  (116,Some 116,Some 116); (118,Some 118,Some 118); (119,Some 119,Some 119); (120,Some 120,Some 120); (121,Some 121,Some 121);
  (122,Some 122,Some 122); (123,Some 123,Some 123); (125,Some 125,Some 125); (126,Some 126,Some 126); (127,Some 127,Some 127);
  (128,Some 128,Some 128); (129,Some 129,Some 129); (130,Some 130,Some 130); (133,Some 133,Some 133); (134,Some 134,Some 134);
  (136,Some 136,Some 136); (137,Some 137,Some 137)].
(** sPolynomial32, spolynomials.cpp 270 *)
Definition kn_s32 := GS 32 2 0 3 0 [
  (1,Some 1,Some 1); (2,Some 2,Some 2); (3,Some 3,Some 3); (4,Some 4,Some 4); (5,Some 5,Some 5); (6,Some 6,Some 6); (8,Some 8,Some 8);
  (10,Some 10,Some 10); (11,Some 11,Some 11); (12,Some 12,Some 12); (13,Some 13,Some 13); (14,Some 14,Some 14); (15,Some 15,Some 15);
  (16,Some 16,Some 16); (18,Some 18,Some 18); (19,Some 19,Some 19); (20,Some 20,Some 20); (21,Some 21,Some 21); (22,Some 22,Some 22);
  (23,Some 23,Some 23); (25,Some 25,Some 25); (26,Some 26,Some 26); (27,Some 27,Some 27); (28,Some 28,Some 28); (29,Some 29,Some 29);
  (30,Some 30,Some 30); (33,Some 33,Some 33); (34,Some 34,Some 34); (39,Some 39,Some 39); (40,Some 40,Some 40); (41,Some 41,Some 41);
  (42,Some 42,Some 42); (43,Some 43,Some 43); (44,Some 44,Some 44); (45,Some 45,Some 45); (46,Some 46,Some 46); (47,Some 47,Some 47);
  (48,Some 48,Some 48); (49,Some 49,Some 49); (50,Some 50,Some 50); (51,Some 51,Some 51); (52,Some 52,Some 52); (53,Some 53,Some 53);
  (54,Some 54,Some 54); (55,Some 55,Some 55); (56,Some 56,Some 56); (57,Some 57,Some 57); (58,Some 58,Some 58); (59,Some 59,Some 59);
  (60,Some 60,Some 60); (61,Some 61,Some 61); (62,Some 62,Some 62); (64,Some 64,Some 64); (65,Some 65,Some 65); (66,Some 66,Some 66);
  (67,Some 67,Some 67); (68,Some 68,Some 68); (69,Some 69,Some 69); (70,Some 70,Some 70); (71,Some 71,Some 71); (73,Some 73,Some 73);
  (74,Some 74,Some 74); (76,Some 76,Some 76); (77,Some 77,Some 77); (78,Some 78,Some 78); (79,Some 79,Some 79); (80,Some 80,Some 80);
  (81,Some 81,Some 81); (82,Some 82,Some 82); (83,Some 83,Some 83); (84,Some 84,Some 84); (85,Some 85,Some 85); (86,Some 86,Some 86);
  (87,Some 87,Some 87); (89,Some 89,Some 89); (91,Some 91,Some 91); (92,Some 92,Some 92); (94,Some 94,Some 94); (97,Some 97,Some 97);
  (98,Some 98,Some 98); (99,Some 99,Some 99); (100,Some 100,Some 100); (101,Some 101,Some 101); (103,Some 103,Some 103); (104,Some 104,Some 104);
  (105,Some 105,Some 105); (106,Some 106,Some 106); (107,Some 107,Some 107); (108,Some 108,Some 108); (109,Some 109,Some 109);
  (110,Some 110,Some 110); (111,Some 111,Some 111); (112,Some 112,Some 112); (113,Some 113,Some 113); (115,Some 115,Some 115);
  (116,Some 116,Some 116); (118,Some 118,Some 118); (119,Some 119,Some 119); (120,Some 120,Some 120); (121,Some 121,Some 121);
  (122,Some 122,Some 122); (123,Some 123,Some 123); (125,Some 125,Some 125); (126,Some 126,Some 126); (127,Some 127,Some 127);
  (128,Some 128,Some 128); (129,Some 129,Some 129); (130,Some 130,Some 130); (133,Some 133,Some 133); (134,Some 134,Some 134);
  (136,Some 136,Some 136); (137,Some 137,Some 137)].
(** sPolynomial33, spolynomials.cpp 387 *)
Definition kn_s33 := GS 33 3 0 4 0 [
  (1,Some 1,Some 1); (2,Some 2,Some 2); (3,Some 3,Some 3); (4,Some 4,Some 4); (5,Some 5,Some 5); (6,Some 6,Some 6); (8,Some 8,Some 8);
  (10,Some 10,Some 10); (11,Some 11,Some 11); (12,Some 12,Some 12); (13,Some 13,Some 13); (14,Some 14,Some 14); (15,Some 15,Some 15);
  (16,Some 16,Some 16); (18,Some 18,Some 18); (19,Some 19,Some 19); (20,Some 20,Some 20); (21,Some 21,Some 21); (22,Some 22,Some 22);
  (23,Some 23,Some 23); (25,Some 25,Some 25); (26,Some 26,Some 26); (27,Some 27,Some 27); (28,Some 28,Some 28); (29,Some 29,Some 29);
  (30,Some 30,Some 30); (33,Some 33,Some 33); (34,Some 34,Some 34); (39,Some 39,Some 39); (40,Some 40,Some 40); (41,Some 41,Some 41);
  (42,Some 42,Some 42); (43,Some 43,Some 43); (44,Some 44,Some 44); (45,Some 45,Some 45); (46,Some 46,Some 46); (47,Some 47,Some 47);
  (48,Some 48,Some 48); (49,Some 49,Some 49); (50,Some 50,Some 50); (51,Some 51,Some 51); (52,Some 52,Some 52); (53,Some 53,Some 53);
  (54,Some 54,Some 54); (55,Some 55,Some 55); (56,Some 56,Some 56); (57,Some 57,Some 57); (58,Some 58,Some 58); (59,Some 59,Some 59);
  (60,Some 60,Some 60); (61,Some 61,Some 61); (62,Some 62,Some 62); (64,Some 64,Some 64); (65,Some 65,Some 65); (66,Some 66,Some 66);
  (67,Some 67,Some 67); (68,Some 68,Some 68); (69,Some 69,Some 69); (70,Some 70,Some 70); (71,Some 71,Some 71); (73,Some 73,Some 73);
  (74,Some 74,Some 74); (76,Some 76,Some 76); (77,Some 77,Some 77); (78,Some 78,Some 78); (79,Some 79,Some 79); (80,Some 80,Some 80);
  (81,Some 81,Some 81); (82,Some 82,Some 82); (83,Some 83,Some 83); (84,Some 84,Some 84); (85,Some 85,Some 85); (86,Some 86,Some 86);
  (87,Some 87,Some 87); (89,Some 89,Some 89); (91,Some 91,Some 91); (92,Some 92,Some 92); (94,Some 94,Some 94); (97,Some 97,Some 97);
  (98,Some 98,Some 98); (99,Some 99,Some 99); (100,Some 100,Some 100); (101,Some 101,Some 101); (103,Some 103,Some 103); (104,Some 104,Some 104);
  (105,Some 105,Some 105); (106,Some 106,Some 106); (107,Some 107,Some 107); (108,Some 108,Some 108); (109,Some 109,Some 109);
  (110,Some 110,Some 110); (111,Some 111,Some 111); (112,Some 112,Some 112); (113,Some 113,Some 113); (115,Some 115,Some 115);
  (116,Some 116,Some 116); (118,Some 118,Some 118); (119,Some 119,Some 119); (120,Some 120,Some 120); (121,Some 121,Some 121);
  (122,Some 122,Some 122); (123,Some 123,Some 123); (125,Some 125,Some 125); (126,Some 126,Some 126); (127,Some 127,Some 127);
  (128,Some 128,Some 128); (129,Some 129,Some 129); (130,Some 130,Some 130); (133,Some 133,Some 133); (134,Some 134,Some 134);
  (136,Some 136,Some 136); (137,Some 137,Some 137)].
(** sPolynomial34, spolynomials.cpp 504 *)
Definition kn_s34 := GS 34 4 0 5 0 [
  (1,Some 1,Some 1); (2,Some 2,Some 2); (3,Some 3,Some 3); (4,Some 4,Some 4); (5,Some 5,Some 5); (6,Some 6,Some 6); (8,Some 8,Some 8);
  (10,Some 10,Some 10); (11,Some 11,Some 11); (12,Some 12,Some 12); (13,Some 13,Some 13); (14,Some 14,Some 14); (15,Some 15,Some 15);
  (16,Some 16,Some 16); (18,Some 18,Some 18); (19,Some 19,Some 19); (20,Some 20,Some 20); (21,Some 21,Some 21); (22,Some 22,Some 22);
  (23,Some 23,Some 23); (25,Some 25,Some 25); (26,Some 26,Some 26); (27,Some 27,Some 27); (28,Some 28,Some 28); (29,Some 29,Some 29);
  (30,Some 30,Some 30); (33,Some 33,Some 33); (34,Some 34,Some 34); (39,Some 39,Some 39); (40,Some 40,Some 40); (41,Some 41,Some 41);
  (42,Some 42,Some 42); (43,Some 43,Some 43); (44,Some 44,Some 44); (45,Some 45,Some 45); (46,Some 46,Some 46); (47,Some 47,Some 47);
  (48,Some 48,Some 48); (49,Some 49,Some 49); (50,Some 50,Some 50); (51,Some 51,Some 51); (52,Some 52,Some 52); (53,Some 53,Some 53);
  (54,Some 54,Some 54); (55,Some 55,Some 55); (56,Some 56,Some 56); (57,Some 57,Some 57); (58,Some 58,Some 58); (59,Some 59,Some 59);
  (60,Some 60,Some 60); (61,Some 61,Some 61); (62,Some 62,Some 62); (64,Some 64,Some 64); (65,Some 65,Some 65); (66,Some 66,Some 66);
  (67,Some 67,Some 67); (68,Some 68,Some 68); (69,Some 69,Some 69); (70,Some 70,Some 70); (71,Some 71,Some 71); (73,Some 73,Some 73);
  (74,Some 74,Some 74); (76,Some 76,Some 76); (77,Some 77,Some 77); (78,Some 78,Some 78); (79,Some 79,Some 79); (80,Some 80,Some 80);
  (81,Some 81,Some 81); (82,Some 82,Some 82); (83,Some 83,Some 83); (84,Some 84,Some 84); (85,Some 85,Some 85); (86,Some 86,Some 86);
  (87,Some 87,Some 87); (89,Some 89,Some 89); (91,Some 91,Some 91); (92,Some 92,Some 92); (94,Some 94,Some 94); (97,Some 97,Some 97);
  (98,Some 98,Some 98); (99,Some 99,Some 99); (100,Some 100,Some 100); (101,Some 101,Some 101); (103,Some 103,Some 103); (104,Some 104,Some 104);
  (105,Some 105,Some 105); (106,Some 106,Some 106); (107,Some 107,Some 107); (108,Some 108,Some 108); (109,Some 109,Some 109);
  (110,Some 110,Some 110); (111,Some 111,Some 111); (112,Some 112,Some 112); (113,Some 113,Some 113); (115,Some 115,Some 115);
  (116,Some 116,Some 116); (118,Some 118,Some 118); (119,Some 119,Some 119); (120,Some 120,Some 120); (121,Some 121,Some 121);
  (122,Some 122,Some 122); (123,Some 123,Some 123); (125,Some 125,Some 125); (126,Some 126,Some 126); (127,Some 127,Some 127);
  (128,Some 128,Some 128); (129,Some 129,Some 129); (130,Some 130,Some 130); (133,Some 133,Some 133); (134,Some 134,Some 134);
  (136,Some 136,Some 136); (137,Some 137,Some 137)].
(** sPolynomial35, spolynomials.cpp 621 *)
Definition kn_s35 := GS 35 5 0 6 0 [
  (1,Some 1,Some 1); (2,Some 2,Some 2); (3,Some 3,Some 3); (4,Some 4,Some 4); (5,Some 5,Some 5); (6,Some 6,Some 6); (8,Some 8,Some 8);
  (10,Some 10,Some 10); (11,Some 11,Some 11); (12,Some 12,Some 12); (13,Some 13,Some 13); (14,Some 14,Some 14); (15,Some 15,Some 15);
  (16,Some 16,Some 16); (18,Some 18,Some 18); (19,Some 19,Some 19); (20,Some 20,Some 20); (21,Some 21,Some 21); (22,Some 22,Some 22);
  (23,Some 23,Some 23); (25,Some 25,Some 25); (26,Some 26,Some 26); (27,Some 27,Some 27); (28,Some 28,Some 28); (29,Some 29,Some 29);
  (30,Some 30,Some 30); (33,Some 33,Some 33); (34,Some 34,Some 34); (39,Some 39,Some 39); (40,Some 40,Some 40); (41,Some 41,Some 41);
  (42,Some 42,Some 42); (43,Some 43,Some 43); (44,Some 44,Some 44); (45,Some 45,Some 45); (46,Some 46,Some 46); (47,Some 47,Some 47);
  (48,Some 48,Some 48); (49,Some 49,Some 49); (50,Some 50,Some 50); (51,Some 51,Some 51); (52,Some 52,Some 52); (53,Some 53,Some 53);
  (54,Some 54,Some 54); (55,Some 55,Some 55); (56,Some 56,Some 56); (57,Some 57,Some 57); (58,Some 58,Some 58); (59,Some 59,Some 59);
  (60,Some 60,Some 60); (61,Some 61,Some 61); (62,Some 62,Some 62); (64,Some 64,Some 64); (65,Some 65,Some 65); (66,Some 66,Some 66);
  (67,Some 67,Some 67); (68,Some 68,Some 68); (69,Some 69,Some 69); (70,Some 70,Some 70); (71,Some 71,Some 71); (73,Some 73,Some 73);
  (74,Some 74,Some 74); (76,Some 76,Some 76); (77,Some 77,Some 77); (78,Some 78,Some 78); (79,Some 79,Some 79); (80,Some 80,Some 80);
  (81,Some 81,Some 81); (82,Some 82,Some 82); (83,Some 83,Some 83); (84,Some 84,Some 84); (85,Some 85,Some 85); (86,Some 86,Some 86);
  (87,Some 87,Some 87); (89,Some 89,Some 89); (91,Some 91,Some 91); (92,Some 92,Some 92); (94,Some 94,Some 94); (97,Some 97,Some 97);
  (98,Some 98,Some 98); (99,Some 99,Some 99); (100,Some 100,Some 100); (101,Some 101,Some 101); (103,Some 103,Some 103); (104,Some 104,Some 104);
  (105,Some 105,Some 105); (106,Some 106,Some 106); (107,Some 107,Some 107); (108,Some 108,Some 108); (109,Some 109,Some 109);
  (110,Some 110,Some 110); (111,Some 111,Some 111); (112,Some 112,Some 112); (113,Some 113,Some 113); (115,Some 115,Some 115);
  (116,Some 116,Some 116); (118,Some 118,Some 118); (119,Some 119,Some 119); (120,Some 120,Some 120); (121,Some 121,Some 121);
  (122,Some 122,Some 122); (123,Some 123,Some 123); (125,Some 125,Some 125); (126,Some 126,Some 126); (127,Some 127,Some 127);
  (128,Some 128,Some 128); (129,Some 129,Some 129); (130,Some 130,Some 130); (133,Some 133,Some 133); (134,Some 134,Some 134);
  (136,Some 136,Some 136); (137,Some 137,Some 137)].
(** sPolynomial36, spolynomials.cpp 738 *)
Definition kn_s36 := GS 36 6 0 7 0 [
  (1,Some 1,Some 1); (2,Some 2,Some 2); (3,Some 3,Some 3); (4,Some 4,Some 4); (5,Some 5,Some 5); (6,Some 6,Some 6); (8,Some 8,Some 8);
  (10,Some 10,Some 10); (11,Some 11,Some 11); (12,Some 12,Some 12); (13,Some 13,Some 13); (14,Some 14,Some 14); (15,Some 15,Some 15);
  (16,Some 16,Some 16); (18,Some 18,Some 18); (19,Some 19,Some 19); (20,Some 20,Some 20); (21,Some 21,Some 21); (22,Some 22,Some 22);
  (23,Some 23,Some 23); (25,Some 25,Some 25); (26,Some 26,Some 26); (27,Some 27,Some 27); (28,Some 28,Some 28); (29,Some 29,Some 29);
  (30,Some 30,Some 30); (33,Some 33,Some 33); (34,Some 34,Some 34); (39,Some 39,Some 39); (40,Some 40,Some 40); (41,Some 41,Some 41);
  (42,Some 42,Some 42); (43,Some 43,Some 43); (44,Some 44,Some 44); (45,Some 45,Some 45); (46,Some 46,Some 46); (47,Some 47,Some 47);
  (48,Some 48,Some 48); (49,Some 49,Some 49); (50,Some 50,Some 50); (51,Some 51,Some 51); (52,Some 52,Some 52); (53,Some 53,Some 53);
  (54,Some 54,Some 54); (55,Some 55,Some 55); (56,Some 56,Some 56); (57,Some 57,Some 57); (58,Some 58,Some 58); (59,Some 59,Some 59);
  (60,Some 60,Some 60); (61,Some 61,Some 61); (62,Some 62,Some 62); (64,Some 64,Some 64); (65,Some 65,Some 65); (66,Some 66,Some 66);
  (67,Some 67,Some 67); (68,Some 68,Some 68); (69,Some 69,Some 69); (70,Some 70,Some 70); (71,Some 71,Some 71); (73,Some 73,Some 73);
  (74,Some 74,Some 74); (76,Some 76,Some 76); (77,Some 77,Some 77); (78,Some 78,Some 78); (79,Some 79,Some 79); (80,Some 80,Some 80);
  (81,Some 81,Some 81); (82,Some 82,Some 82); (83,Some 83,Some 83); (84,Some 84,Some 84); (85,Some 85,Some 85); (86,Some 86,Some 86);
  (87,Some 87,Some 87); (89,Some 89,Some 89); (91,Some 91,Some 91); (92,Some 92,Some 92); (94,Some 94,Some 94); (97,Some 97,Some 97);
  (98,Some 98,Some 98); (99,Some 99,Some 99); (100,Some 100,Some 100); (101,Some 101,Some 101); (103,Some 103,Some 103); (104,Some 104,Some 104);
  (105,Some 105,Some 105); (106,Some 106,Some 106); (107,Some 107,Some 107); (108,Some 108,Some 108); (109,Some 109,Some 109);
  (110,Some 110,Some 110); (111,Some 111,Some 111); (112,Some 112,Some 112); (113,Some 113,Some 113); (115,Some 115,Some 115);
  (116,Some 116,Some 116); (118,Some 118,Some 118); (119,Some 119,Some 119); (120,Some 120,Some 120); (121,Some 121,Some 121);
  (122,Some 122,Some 122); (123,Some 123,Some 123); (125,Some 125,Some 125); (126,Some 126,Some 126); (127,Some 127,Some 127);
  (128,Some 128,Some 128); (129,Some 129,Some 129); (130,Some 130,Some 130); (133,Some 133,Some 133); (134,Some 134,Some 134);
  (136,Some 136,Some 136); (137,Some 137,Some 137)].
(** sPolynomial37, spolynomials.cpp 855 *)
Definition kn_s37 := GS 37 7 0 8 0 [
  (1,Some 1,Some 1); (2,Some 2,Some 2); (3,Some 3,Some 3); (4,Some 4,Some 4); (5,Some 5,Some 5); (6,Some 6,Some 6); (8,Some 8,Some 8);
  (10,Some 10,Some 10); (11,Some 11,Some 11); (12,Some 12,Some 12); (13,Some 13,Some 13); (14,Some 14,Some 14); (15,Some 15,Some 15);
  (16,Some 16,Some 16); (18,Some 18,Some 18); (19,Some 19,Some 19); (20,Some 20,Some 20); (21,Some 21,Some 21); (22,Some 22,Some 22);
  (23,Some 23,Some 23); (25,Some 25,Some 25); (26,Some 26,Some 26); (27,Some 27,Some 27); (28,Some 28,Some 28); (29,Some 29,Some 29);
  (30,Some 30,Some 30); (33,Some 33,Some 33); (34,Some 34,Some 34); (39,Some 39,Some 39); (40,Some 40,Some 40); (41,Some 41,Some 41);
  (42,Some 42,Some 42); (43,Some 43,Some 43); (44,Some 44,Some 44); (45,Some 45,Some 45); (46,Some 46,Some 46); (47,Some 47,Some 47);
  (48,Some 48,Some 48); (49,Some 49,Some 49); (50,Some 50,Some 50); (51,Some 51,Some 51); (52,Some 52,Some 52); (53,Some 53,Some 53);
  (54,Some 54,Some 54); (55,Some 55,Some 55); (56,Some 56,Some 56); (57,Some 57,Some 57); (58,Some 58,Some 58); (59,Some 59,Some 59);
  (60,Some 60,Some 60); (61,Some 61,Some 61); (62,Some 62,Some 62); (64,Some 64,Some 64); (65,Some 65,Some 65); (66,Some 66,Some 66);
  (67,Some 67,Some 67); (68,Some 68,Some 68); (69,Some 69,Some 69); (70,Some 70,Some 70); (71,Some 71,Some 71); (73,Some 73,Some 73);
  (74,Some 74,Some 74); (76,Some 76,Some 76); (77,Some 77,Some 77); (78,Some 78,Some 78); (79,Some 79,Some 79); (80,Some 80,Some 80);
  (81,Some 81,Some 81); (82,Some 82,Some 82); (83,Some 83,Some 83); (84,Some 84,Some 84); (85,Some 85,Some 85); (86,Some 86,Some 86);
  (87,Some 87,Some 87); (89,Some 89,Some 89); (91,Some 91,Some 91); (92,Some 92,Some 92); (94,Some 94,Some 94); (97,Some 97,Some 97);
  (98,Some 98,Some 98); (99,Some 99,Some 99); (100,Some 100,Some 100); (101,Some 101,Some 101); (103,Some 103,Some 103); (104,Some 104,Some 104);
  (105,Some 105,Some 105); (106,Some 106,Some 106); (107,Some 107,Some 107); (108,Some 108,Some 108); (109,Some 109,Some 109);
  (110,Some 110,Some 110); (111,Some 111,Some 111); (112,Some 112,Some 112); (113,Some 113,Some 113); (115,Some 115,Some 115);
  (116,Some 116,Some 116); (118,Some 118,Some 118); (119,Some 119,Some 119); (120,Some 120,Some 120); (121,Some 121,Some 121);
  (122,Some 122,Some 122); (123,Some 123,Some 123); (125,Some 125,Some 125); (126,Some 126,Some 126); (127,Some 127,Some 127);
  (128,Some 128,Some 128); (129,Some 129,Some 129); (130,Some 130,Some 130); (133,Some 133,Some 133); (134,Some 134,Some 134);
  (136,Some 136,Some 136); (137,Some 137,Some 137)].
(** sPolynomial38, spolynomials.cpp 972 *)
Definition kn_s38 := GS 38 8 0 9 0 [
  (1,Some 1,Some 1); (2,Some 2,Some 2); (3,Some 3,Some 3); (4,Some 4,Some 4); (5,Some 5,Some 5); (6,Some 6,Some 6); (8,Some 8,Some 8);
  (10,Some 10,Some 10); (11,Some 11,Some 11); (12,Some 12,Some 12); (13,Some 13,Some 13); (14,Some 14,Some 14); (15,Some 15,Some 15);
  (16,Some 16,Some 16); (18,Some 18,Some 18); (19,Some 19,Some 19); (20,Some 20,Some 20); (21,Some 21,Some 21); (22,Some 22,Some 22);
  (23,Some 23,Some 23); (25,Some 25,Some 25); (26,Some 26,Some 26); (27,Some 27,Some 27); (28,Some 28,Some 28); (29,Some 29,Some 29);
  (30,Some 30,Some 30); (33,Some 33,Some 33); (34,Some 34,Some 34); (39,Some 39,Some 39); (40,Some 40,Some 40); (41,Some 41,Some 41);
  (42,Some 42,Some 42); (43,Some 43,Some 43); (44,Some 44,Some 44); (45,Some 45,Some 45); (46,Some 46,Some 46); (47,Some 47,Some 47);
  (48,Some 48,Some 48); (49,Some 49,Some 49); (50,Some 50,Some 50); (51,Some 51,Some 51); (52,Some 52,Some 52); (53,Some 53,Some 53);
  (54,Some 54,Some 54); (55,Some 55,Some 55); (56,Some 56,Some 56); (57,Some 57,Some 57); (58,Some 58,Some 58); (59,Some 59,Some 59);
  (60,Some 60,Some 60); (61,Some 61,Some 61); (62,Some 62,Some 62); (64,Some 64,Some 64); (65,Some 65,Some 65); (66,Some 66,Some 66);
  (67,Some 67,Some 67); (68,Some 68,Some 68); (69,Some 69,Some 69); (70,Some 70,Some 70); (71,Some 71,Some 71); (73,Some 73,Some 73);
  (74,Some 74,Some 74); (76,Some 76,Some 76); (77,Some 77,Some 77); (78,Some 78,Some 78); (79,Some 79,Some 79); (80,Some 80,Some 80);
  (81,Some 81,Some 81); (82,Some 82,Some 82); (83,Some 83,Some 83); (84,Some 84,Some 84); (85,Some 85,Some 85); (86,Some 86,Some 86);
  (87,Some 87,Some 87); (89,Some 89,Some 89); (91,Some 91,Some 91); (92,Some 92,Some 92); (94,Some 94,Some 94); (97,Some 97,Some 97);
  (98,Some 98,Some 98); (99,Some 99,Some 99); (100,Some 100,Some 100); (101,Some 101,Some 101); (103,Some 103,Some 103); (104,Some 104,Some 104);
  (105,Some 105,Some 105); (106,Some 106,Some 106); (107,Some 107,Some 107); (108,Some 108,Some 108); (109,Some 109,Some 109);
  (110,Some 110,Some 110); (111,Some 111,Some 111); (112,Some 112,Some 112); (113,Some 113,Some 113); (115,Some 115,Some 115);
  (116,Some 116,Some 116); (118,Some 118,Some 118); (119,Some 119,Some 119); (120,Some 120,Some 120); (121,Some 121,Some 121);
  (122,Some 122,Some 122); (123,Some 123,Some 123); (125,Some 125,Some 125); (126,Some 126,Some 126); (127,Some 127,Some 127);
  (128,Some 128,Some 128); (129,Some 129,Some 129); (130,Some 130,Some 130); (133,Some 133,Some 133); (134,Some 134,Some 134);
  (136,Some 136,Some 136); (137,Some 137,Some 137)].
(** sPolynomial39, spolynomials.cpp 1089 *)
Definition kn_s39 := GS 39 9 0 14 148 [
  (1,Some 1,None); (2,Some 2,None); (3,Some 3,None); (4,Some 4,None); (5,Some 5,None); (6,Some 6,None); (7,Some 7,None); (8,Some 8,None);
  (9,None,Some 153); (10,Some 10,None); (11,Some 11,None); (12,Some 12,None); (13,Some 13,None); (14,Some 14,None); (15,Some 15,None);
  (16,Some 16,None); (18,Some 18,None); (19,Some 19,None); (20,Some 20,None); (21,Some 21,None); (22,Some 22,None); (23,Some 23,Some 159);
  (25,Some 25,None); (26,Some 26,None); (27,Some 27,None); (28,Some 28,None); (29,Some 29,None); (30,Some 30,None); (33,Some 33,None);
  (34,Some 34,None); (39,Some 39,None); (40,Some 40,None); (41,Some 41,None); (42,Some 42,None); (43,Some 43,None); (44,Some 44,None);
  (45,Some 45,None); (46,Some 46,None); (47,Some 47,None); (48,Some 48,None); (49,Some 49,None); (50,Some 50,None); (51,Some 51,None);
  (52,Some 52,None); (53,Some 53,None); (54,Some 54,None); (55,Some 55,None); (56,Some 56,None); (57,Some 57,None); (58,Some 58,None);
  (59,Some 59,None); (60,Some 60,None); (61,Some 61,None); (62,Some 62,None); (64,Some 64,None); (65,Some 65,None); (66,Some 66,None);
  (67,Some 67,None); (68,Some 68,None); (69,Some 69,None); (70,Some 70,None); (71,Some 71,None); (73,Some 73,None); (74,Some 74,None);
  (76,Some 76,None); (77,Some 77,None); (78,Some 78,None); (79,Some 79,None); (80,Some 80,None); (81,Some 81,None); (82,Some 82,None);
  (83,Some 83,None); (84,Some 84,None); (85,Some 85,None); (86,Some 86,None); (87,Some 87,None); (89,Some 89,None); (91,Some 91,None);
  (92,Some 92,None); (94,Some 94,None); (97,Some 97,None); (98,Some 98,None); (99,Some 99,None); (100,Some 100,None); (101,Some 101,None);
  (103,Some 103,None); (104,Some 104,None); (105,Some 105,None); (106,Some 106,None); (107,Some 107,None); (108,Some 108,None); (109,Some 109,None);
  (110,Some 110,None); (111,Some 111,None); (112,Some 112,None); (113,Some 113,None); (115,Some 115,None); (116,Some 116,None); (118,Some 118,None);
  (119,Some 119,None); (120,Some 120,None); (121,Some 121,None); (122,Some 122,None); (123,Some 123,None); (125,Some 125,None); (126,Some 126,None);
  (127,Some 127,None); (128,Some 128,None); (129,Some 129,None); (130,Some 130,None); (133,Some 133,None); (134,Some 134,None); (136,Some 136,None);
  (137,Some 137,None)].
(** sPolynomial40, spolynomials.cpp 1208 *)
Definition kn_s40 := GS 40 18 175 39 162 [
  (89,None,Some 170); (90,None,Some 171); (92,None,Some 173); (93,None,Some 174); (95,None,Some 176); (96,None,Some 177); (116,Some 182,None);
  (125,None,Some 178); (126,None,Some 179); (127,None,Some 180); (128,None,Some 181); (129,None,Some 182); (130,None,Some 183); (131,None,Some 184);
  (132,None,Some 185); (140,None,Some 186); (157,Some 187,None); (170,None,Some 187); (171,None,Some 188); (172,None,Some 189); (173,None,Some 190);
  (174,None,Some 191); (175,None,Some 192); (176,None,Some 193); (177,None,Some 194); (185,None,Some 195); (194,None,Some 196)].
(** sPolynomial41, spolynomials.cpp 1240 *)
Definition kn_s41 := GS 41 18 175 38 161 [
  (81,None,Some 162); (89,None,Some 170); (90,None,Some 171); (92,None,Some 173); (93,None,Some 174); (95,None,Some 176); (96,None,Some 177);
  (111,Some 182,None); (125,None,Some 178); (126,None,Some 179); (127,None,Some 180); (128,None,Some 181); (129,None,Some 182); (130,None,Some 183);
  (131,None,Some 184); (132,None,Some 185); (140,None,Some 186); (152,Some 187,None); (170,None,Some 187); (171,None,Some 188); (172,None,Some 189);
  (173,None,Some 190); (174,None,Some 191); (175,None,Some 192); (176,None,Some 193); (177,None,Some 194); (185,None,Some 195); (194,None,Some 196)].
(** sPolynomial42, spolynomials.cpp 1273 *)
Definition kn_s42 := GS 42 18 175 37 160 [
  (80,None,Some 161); (81,None,Some 162); (89,None,Some 170); (90,None,Some 171); (92,None,Some 173); (93,None,Some 174); (95,None,Some 176);
  (96,None,Some 177); (110,Some 182,None); (125,None,Some 178); (126,None,Some 179); (127,None,Some 180); (128,None,Some 181); (129,None,Some 182);
  (130,None,Some 183); (131,None,Some 184); (132,None,Some 185); (140,None,Some 186); (148,Some 187,None); (170,None,Some 187); (171,None,Some 188);
  (172,None,Some 189); (173,None,Some 190); (174,None,Some 191); (175,None,Some 192); (176,None,Some 193); (177,None,Some 194); (185,None,Some 195);
  (194,None,Some 196)].
(** sPolynomial43, spolynomials.cpp 1307 *)
Definition kn_s43 := GS 43 17 172 36 159 [
  (79,None,Some 160); (80,None,Some 161); (81,None,Some 162); (89,None,Some 170); (90,None,Some 171); (92,None,Some 173); (93,None,Some 174);
  (95,None,Some 176); (96,None,Some 177); (113,Some 179,None); (125,None,Some 178); (126,None,Some 179); (127,None,Some 180); (128,None,Some 181);
  (129,None,Some 182); (130,None,Some 183); (131,None,Some 184); (132,None,Some 185); (140,None,Some 186); (160,Some 190,None); (170,None,Some 187);
  (171,None,Some 188); (172,None,Some 189); (173,None,Some 190); (174,None,Some 191); (175,None,Some 192); (176,None,Some 193); (177,None,Some 194);
  (185,None,Some 195); (194,None,Some 196)].
(** sPolynomial44, spolynomials.cpp 1342 *)
Definition kn_s44 := GS 44 18 175 35 158 [
  (78,None,Some 159); (79,None,Some 160); (80,None,Some 161); (81,None,Some 162); (89,None,Some 170); (90,None,Some 171); (92,None,Some 173);
  (93,None,Some 174); (95,None,Some 176); (96,None,Some 177); (108,Some 182,None); (125,None,Some 178); (126,None,Some 179); (127,None,Some 180);
  (128,None,Some 181); (129,None,Some 182); (130,None,Some 183); (131,None,Some 184); (132,None,Some 185); (140,None,Some 186); (143,Some 187,None);
  (170,None,Some 187); (171,None,Some 188); (172,None,Some 189); (173,None,Some 190); (174,None,Some 191); (175,None,Some 192); (176,None,Some 193);
  (177,None,Some 194); (185,None,Some 195); (194,None,Some 196)].
(** sPolynomial45, spolynomials.cpp 1378 *)
Definition kn_s45 := GS 45 18 175 34 157 [
  (77,None,Some 158); (78,None,Some 159); (79,None,Some 160); (80,None,Some 161); (81,None,Some 162); (89,None,Some 170); (90,None,Some 171);
  (92,None,Some 173); (93,None,Some 174); (95,None,Some 176); (96,None,Some 177); (107,Some 182,None); (125,None,Some 178); (126,None,Some 179);
  (127,None,Some 180); (128,None,Some 181); (129,None,Some 182); (130,None,Some 183); (131,None,Some 184); (132,None,Some 185); (140,None,Some 186);
  (142,Some 187,None); (170,None,Some 187); (171,None,Some 188); (172,None,Some 189); (173,None,Some 190); (174,None,Some 191); (175,None,Some 192);
  (176,None,Some 193); (177,None,Some 194); (185,None,Some 195); (194,None,Some 196)].
(** sPolynomial46, spolynomials.cpp 1415 *)
Definition kn_s46 := GS 46 27 168 39 162 [
  (82,None,Some 170); (83,None,Some 171); (85,None,Some 173); (86,None,Some 174); (88,None,Some 176); (95,None,Some 177); (115,Some 181,None);
  (118,None,Some 178); (119,None,Some 179); (120,None,Some 180); (121,None,Some 181); (122,None,Some 182); (123,None,Some 183); (124,None,Some 184);
  (131,None,Some 185); (139,None,Some 186); (158,Some 188,None); (163,None,Some 187); (164,None,Some 188); (165,None,Some 189); (166,None,Some 190);
  (167,None,Some 191); (168,None,Some 192); (169,None,Some 193); (176,None,Some 194); (184,None,Some 195); (193,None,Some 196)].
(** sPolynomial47, spolynomials.cpp 1447 *)
Definition kn_s47 := GS 47 21 167 38 161 [
  (56,None,Some 162); (79,Some 173,None); (82,None,Some 170); (83,None,Some 171); (85,None,Some 173); (86,None,Some 174); (88,None,Some 176);
  (95,None,Some 177); (118,None,Some 178); (119,None,Some 179); (120,None,Some 180); (121,None,Some 181); (122,None,Some 182); (123,None,Some 183);
  (124,None,Some 184); (131,None,Some 185); (139,None,Some 186); (159,Some 189,None); (163,None,Some 187); (164,None,Some 188); (165,None,Some 189);
  (166,None,Some 190); (167,None,Some 191); (168,None,Some 192); (169,None,Some 193); (176,None,Some 194); (184,None,Some 195); (193,None,Some 196)].
(** sPolynomial48, spolynomials.cpp 1480 *)
Definition kn_s48 := GS 48 11 166 37 160 [
  (55,None,Some 161); (56,None,Some 162); (80,Some 174,None); (82,None,Some 170); (83,None,Some 171); (85,None,Some 173); (86,None,Some 174);
  (88,None,Some 176); (95,None,Some 177); (117,Some 183,None); (118,None,Some 178); (119,None,Some 179); (120,None,Some 180); (121,None,Some 181);
  (122,None,Some 182); (123,None,Some 183); (124,None,Some 184); (131,None,Some 185); (139,None,Some 186); (163,None,Some 187); (164,None,Some 188);
  (165,None,Some 189); (166,None,Some 190); (167,None,Some 191); (168,None,Some 192); (169,None,Some 193); (176,None,Some 194); (184,None,Some 195);
  (193,None,Some 196)].
(** sPolynomial49, spolynomials.cpp 1514 *)
Definition kn_s49 := GS 49 27 168 36 159 [
  (54,None,Some 160); (55,None,Some 161); (56,None,Some 162); (82,None,Some 170); (83,None,Some 171); (85,None,Some 173); (86,None,Some 174);
  (88,None,Some 176); (95,None,Some 177); (105,Some 181,None); (118,None,Some 178); (119,None,Some 179); (120,None,Some 180); (121,None,Some 181);
  (122,None,Some 182); (123,None,Some 183); (124,None,Some 184); (131,None,Some 185); (139,None,Some 186); (146,Some 188,None); (163,None,Some 187);
  (164,None,Some 188); (165,None,Some 189); (166,None,Some 190); (167,None,Some 191); (168,None,Some 192); (169,None,Some 193); (176,None,Some 194);
  (184,None,Some 195); (193,None,Some 196)].
(** sPolynomial50, spolynomials.cpp 1549 *)
Definition kn_s50 := GS 50 20 164 35 158 [
  (53,None,Some 159); (54,None,Some 160); (55,None,Some 161); (56,None,Some 162); (76,Some 170,None); (82,None,Some 170); (83,None,Some 171);
  (85,None,Some 173); (86,None,Some 174); (88,None,Some 176); (95,None,Some 177); (118,None,Some 178); (119,None,Some 179); (120,None,Some 180);
  (121,None,Some 181); (122,None,Some 182); (123,None,Some 183); (124,None,Some 184); (131,None,Some 185); (139,None,Some 186); (162,Some 192,None);
  (163,None,Some 187); (164,None,Some 188); (165,None,Some 189); (166,None,Some 190); (167,None,Some 191); (168,None,Some 192); (169,None,Some 193);
  (176,None,Some 194); (184,None,Some 195); (193,None,Some 196)].
(** sPolynomial51, spolynomials.cpp 1585 *)
Definition kn_s51 := GS 51 12 163 34 157 [
  (52,None,Some 158); (53,None,Some 159); (54,None,Some 160); (55,None,Some 161); (56,None,Some 162); (77,Some 171,None); (82,None,Some 170);
  (83,None,Some 171); (85,None,Some 173); (86,None,Some 174); (88,None,Some 176); (95,None,Some 177); (114,Some 180,None); (118,None,Some 178);
  (119,None,Some 179); (120,None,Some 180); (121,None,Some 181); (122,None,Some 182); (123,None,Some 183); (124,None,Some 184); (131,None,Some 185);
  (139,None,Some 186); (163,None,Some 187); (164,None,Some 188); (165,None,Some 189); (166,None,Some 190); (167,None,Some 191); (168,None,Some 192);
  (169,None,Some 193); (176,None,Some 194); (184,None,Some 195); (193,None,Some 196)].
(** sPolynomial52, spolynomials.cpp 1622 *)
Definition kn_s52 := GS 52 21 167 33 156 [
  (51,None,Some 157); (52,None,Some 158); (53,None,Some 159); (54,None,Some 160); (55,None,Some 161); (56,None,Some 162); (74,Some 173,None);
  (82,None,Some 170); (83,None,Some 171); (85,None,Some 173); (86,None,Some 174); (88,None,Some 176); (95,None,Some 177); (118,None,Some 178);
  (119,None,Some 179); (120,None,Some 180); (121,None,Some 181); (122,None,Some 182); (123,None,Some 183); (124,None,Some 184); (131,None,Some 185);
  (139,None,Some 186); (154,Some 189,None); (163,None,Some 187); (164,None,Some 188); (165,None,Some 189); (166,None,Some 190); (167,None,Some 191);
  (168,None,Some 192); (169,None,Some 193); (176,None,Some 194); (184,None,Some 195); (193,None,Some 196)].
(** sPolynomial53, spolynomials.cpp 1660 *)
Definition kn_s53 := GS 53 11 166 32 155 [
  (50,None,Some 156); (51,None,Some 157); (52,None,Some 158); (53,None,Some 159); (54,None,Some 160); (55,None,Some 161); (56,None,Some 162);
  (75,Some 174,None); (82,None,Some 170); (83,None,Some 171); (85,None,Some 173); (86,None,Some 174); (88,None,Some 176); (95,None,Some 177);
  (116,Some 183,None); (118,None,Some 178); (119,None,Some 179); (120,None,Some 180); (121,None,Some 181); (122,None,Some 182); (123,None,Some 183);
  (124,None,Some 184); (131,None,Some 185); (139,None,Some 186); (163,None,Some 187); (164,None,Some 188); (165,None,Some 189); (166,None,Some 190);
  (167,None,Some 191); (168,None,Some 192); (169,None,Some 193); (176,None,Some 194); (184,None,Some 195); (193,None,Some 196)].
(** sPolynomial54, spolynomials.cpp 1699 *)
Definition kn_s54 := GS 54 20 164 31 153 [
  (49,None,Some 155); (50,None,Some 156); (51,None,Some 157); (52,None,Some 158); (53,None,Some 159); (54,None,Some 160); (55,None,Some 161);
  (56,None,Some 162); (71,Some 170,None); (82,None,Some 170); (83,None,Some 171); (85,None,Some 173); (86,None,Some 174); (88,None,Some 176);
  (95,None,Some 177); (118,None,Some 178); (119,None,Some 179); (120,None,Some 180); (121,None,Some 181); (122,None,Some 182); (123,None,Some 183);
  (124,None,Some 184); (131,None,Some 185); (139,None,Some 186); (161,Some 192,None); (163,None,Some 187); (164,None,Some 188); (165,None,Some 189);
  (166,None,Some 190); (167,None,Some 191); (168,None,Some 192); (169,None,Some 193); (176,None,Some 194); (184,None,Some 195); (193,None,Some 196)].
(** sPolynomial55, spolynomials.cpp 1739 *)
Definition kn_s55 := GS 55 38 161 39 162 [
  (38,Some 162,None); (71,None,Some 170); (72,None,Some 171); (74,None,Some 173); (75,None,Some 174); (76,Some 170,None); (77,Some 171,None);
  (79,Some 173,None); (80,Some 174,None); (86,None,Some 176); (87,Some 176,None); (93,None,Some 177); (94,Some 177,None); (107,None,Some 178);
  (108,None,Some 179); (109,None,Some 180); (110,None,Some 181); (111,None,Some 182); (112,Some 178,None); (113,Some 179,None); (114,Some 180,None);
  (115,Some 181,None); (116,Some 182,Some 183); (117,Some 183,None); (122,None,Some 184); (123,Some 184,None); (129,None,Some 185);
  (130,Some 185,None); (137,None,Some 186); (138,Some 186,None); (152,None,Some 187); (153,None,Some 188); (154,None,Some 189); (155,None,Some 190);
  (156,None,Some 191); (157,Some 187,None); (158,Some 188,None); (159,Some 189,None); (160,Some 190,None); (161,Some 191,Some 192);
  (162,Some 192,None); (167,None,Some 193); (168,Some 193,None); (174,None,Some 194); (175,Some 194,None); (182,None,Some 195); (183,Some 195,None);
  (191,None,Some 196); (192,Some 196,None)].
(** sPolynomial56, spolynomials.cpp 1793 *)
Definition kn_s56 := GS 56 37 160 39 162 [
  (37,Some 161,None); (38,Some 162,None); (67,None,Some 170); (68,None,Some 171); (70,None,Some 173); (74,None,Some 174); (76,Some 170,None);
  (77,Some 171,None); (79,Some 173,None); (80,Some 174,None); (85,None,Some 176); (87,Some 176,None); (92,None,Some 177); (94,Some 177,None);
  (103,None,Some 178); (104,None,Some 179); (105,None,Some 180); (106,None,Some 181); (110,None,Some 182); (112,Some 178,None); (113,Some 179,None);
  (114,Some 180,None); (115,Some 181,Some 183); (116,Some 182,None); (117,Some 183,None); (121,None,Some 184); (123,Some 184,None);
  (128,None,Some 185); (130,Some 185,None); (136,None,Some 186); (138,Some 186,None); (148,None,Some 187); (149,None,Some 188); (150,None,Some 189);
  (151,None,Some 190); (155,None,Some 191); (157,Some 187,None); (158,Some 188,None); (159,Some 189,None); (160,Some 190,Some 192);
  (161,Some 191,None); (162,Some 192,None); (166,None,Some 193); (168,Some 193,None); (173,None,Some 194); (175,Some 194,None); (181,None,Some 195);
  (183,Some 195,None); (190,None,Some 196); (192,Some 196,None)].
(** sPolynomial57, spolynomials.cpp 1848 *)
Definition kn_s57 := GS 57 36 159 39 162 [
  (36,Some 160,None); (37,Some 161,None); (38,Some 162,None); (64,None,Some 170); (65,None,Some 171); (69,None,Some 173); (73,None,Some 174);
  (76,Some 170,None); (77,Some 171,None); (79,Some 173,None); (80,Some 174,None); (84,None,Some 176); (87,Some 176,None); (91,None,Some 177);
  (94,Some 177,None); (100,None,Some 178); (101,None,Some 179); (102,None,Some 180); (105,None,Some 181); (109,None,Some 182); (112,Some 178,None);
  (113,Some 179,None); (114,Some 180,Some 183); (115,Some 181,None); (116,Some 182,None); (117,Some 183,None); (120,None,Some 184);
  (123,Some 184,None); (127,None,Some 185); (130,Some 185,None); (135,None,Some 186); (138,Some 186,None); (145,None,Some 187); (146,None,Some 188);
  (147,None,Some 189); (150,None,Some 190); (154,None,Some 191); (157,Some 187,None); (158,Some 188,None); (159,Some 189,Some 192);
  (160,Some 190,None); (161,Some 191,None); (162,Some 192,None); (165,None,Some 193); (168,Some 193,None); (172,None,Some 194); (175,Some 194,None);
  (180,None,Some 195); (183,Some 195,None); (189,None,Some 196); (192,Some 196,None)].
(** sPolynomial58, spolynomials.cpp 1904 *)
Definition kn_s58 := GS 58 35 158 39 162 [
  (35,Some 159,None); (36,Some 160,None); (37,Some 161,None); (38,Some 162,None); (62,None,Some 170); (63,None,Some 171); (68,None,Some 173);
  (72,None,Some 174); (76,Some 170,None); (77,Some 171,None); (79,Some 173,None); (80,Some 174,None); (83,None,Some 176); (87,Some 176,None);
  (90,None,Some 177); (94,Some 177,None); (98,None,Some 178); (99,None,Some 179); (101,None,Some 180); (104,None,Some 181); (108,None,Some 182);
  (112,Some 178,None); (113,Some 179,Some 183); (114,Some 180,None); (115,Some 181,None); (116,Some 182,None); (117,Some 183,None);
  (119,None,Some 184); (123,Some 184,None); (126,None,Some 185); (130,Some 185,None); (134,None,Some 186); (138,Some 186,None); (143,None,Some 187);
  (144,None,Some 188); (146,None,Some 189); (149,None,Some 190); (153,None,Some 191); (157,Some 187,None); (158,Some 188,Some 192);
  (159,Some 189,None); (160,Some 190,None); (161,Some 191,None); (162,Some 192,None); (164,None,Some 193); (168,Some 193,None); (171,None,Some 194);
  (175,Some 194,None); (179,None,Some 195); (183,Some 195,None); (188,None,Some 196); (192,Some 196,None)].
(** sPolynomial59, spolynomials.cpp 1961 *)
Definition kn_s59 := GS 59 34 157 39 162 [
  (34,Some 158,None); (35,Some 159,None); (36,Some 160,None); (37,Some 161,None); (38,Some 162,None); (61,None,Some 170); (62,None,Some 171);
  (67,None,Some 173); (71,None,Some 174); (76,Some 170,None); (77,Some 171,None); (79,Some 173,None); (80,Some 174,None); (82,None,Some 176);
  (87,Some 176,None); (89,None,Some 177); (94,Some 177,None); (97,None,Some 178); (98,None,Some 179); (100,None,Some 180); (103,None,Some 181);
  (107,None,Some 182); (112,Some 178,Some 183); (113,Some 179,None); (114,Some 180,None); (115,Some 181,None); (116,Some 182,None);
  (117,Some 183,None); (118,None,Some 184); (123,Some 184,None); (125,None,Some 185); (130,Some 185,None); (133,None,Some 186); (138,Some 186,None);
  (142,None,Some 187); (143,None,Some 188); (145,None,Some 189); (148,None,Some 190); (152,None,Some 191); (157,Some 187,Some 192);
  (158,Some 188,None); (159,Some 189,None); (160,Some 190,None); (161,Some 191,None); (162,Some 192,None); (163,None,Some 193); (168,Some 193,None);
  (170,None,Some 194); (175,Some 194,None); (178,None,Some 195); (183,Some 195,None); (187,None,Some 196); (192,Some 196,None)].
(** sPolynomial60, spolynomials.cpp 2019 *)
Definition kn_s60 := GS 60 33 156 38 161 [
  (33,Some 157,None); (34,Some 158,None); (35,Some 159,None); (36,Some 160,None); (37,Some 161,Some 162); (38,Some 162,None); (71,None,Some 170);
  (72,None,Some 171); (74,None,Some 173); (75,None,Some 174); (76,Some 170,None); (77,Some 171,None); (79,Some 173,None); (80,Some 174,None);
  (86,None,Some 176); (87,Some 176,None); (93,None,Some 177); (94,Some 177,None); (107,None,Some 178); (108,None,Some 179); (109,None,Some 180);
  (110,None,Some 181); (111,None,Some 182); (112,Some 178,None); (113,Some 179,None); (114,Some 180,None); (115,Some 181,None);
  (116,Some 182,Some 183); (117,Some 183,None); (122,None,Some 184); (123,Some 184,None); (129,None,Some 185); (130,Some 185,None);
  (137,None,Some 186); (138,Some 186,None); (152,None,Some 187); (153,None,Some 188); (154,None,Some 189); (155,None,Some 190); (156,None,Some 191);
  (157,Some 187,None); (158,Some 188,None); (159,Some 189,None); (160,Some 190,None); (161,Some 191,Some 192); (162,Some 192,None);
  (167,None,Some 193); (168,Some 193,None); (174,None,Some 194); (175,Some 194,None); (182,None,Some 195); (183,Some 195,None); (191,None,Some 196);
  (192,Some 196,None)].
(** sPolynomial61, spolynomials.cpp 2078 *)
Definition kn_s61 := GS 61 32 155 37 160 [
  (32,Some 156,Some 161); (33,Some 157,None); (34,Some 158,None); (35,Some 159,None); (36,Some 160,None); (37,Some 161,Some 162); (38,Some 162,None);
  (71,None,Some 170); (72,None,Some 171); (74,None,Some 173); (75,None,Some 174); (76,Some 170,None); (77,Some 171,None); (79,Some 173,None);
  (80,Some 174,None); (86,None,Some 176); (87,Some 176,None); (93,None,Some 177); (94,Some 177,None); (107,None,Some 178); (108,None,Some 179);
  (109,None,Some 180); (110,None,Some 181); (111,None,Some 182); (112,Some 178,None); (113,Some 179,None); (114,Some 180,None); (115,Some 181,None);
  (116,Some 182,Some 183); (117,Some 183,None); (122,None,Some 184); (123,Some 184,None); (129,None,Some 185); (130,Some 185,None);
  (137,None,Some 186); (138,Some 186,None); (152,None,Some 187); (153,None,Some 188); (154,None,Some 189); (155,None,Some 190); (156,None,Some 191);
  (157,Some 187,None); (158,Some 188,None); (159,Some 189,None); (160,Some 190,None); (161,Some 191,Some 192); (162,Some 192,None);
  (167,None,Some 193); (168,Some 193,None); (174,None,Some 194); (175,Some 194,None); (182,None,Some 195); (183,Some 195,None); (191,None,Some 196);
  (192,Some 196,None)].
(** sPolynomial62, spolynomials.cpp 2138 *)
Definition kn_s62 := GS 62 32 155 38 161 [
  (32,Some 156,None); (33,Some 157,None); (34,Some 158,None); (35,Some 159,None); (36,Some 160,Some 162); (37,Some 161,None); (38,Some 162,None);
  (67,None,Some 170); (68,None,Some 171); (70,None,Some 173); (74,None,Some 174); (76,Some 170,None); (77,Some 171,None); (79,Some 173,None);
  (80,Some 174,None); (85,None,Some 176); (87,Some 176,None); (92,None,Some 177); (94,Some 177,None); (103,None,Some 178); (104,None,Some 179);
  (105,None,Some 180); (106,None,Some 181); (110,None,Some 182); (112,Some 178,None); (113,Some 179,None); (114,Some 180,None);
  (115,Some 181,Some 183); (116,Some 182,None); (117,Some 183,None); (121,None,Some 184); (123,Some 184,None); (128,None,Some 185);
  (130,Some 185,None); (136,None,Some 186); (138,Some 186,None); (148,None,Some 187); (149,None,Some 188); (150,None,Some 189); (151,None,Some 190);
  (155,None,Some 191); (157,Some 187,None); (158,Some 188,None); (159,Some 189,None); (160,Some 190,Some 192); (161,Some 191,None);
  (162,Some 192,None); (166,None,Some 193); (168,Some 193,None); (173,None,Some 194); (175,Some 194,None); (181,None,Some 195); (183,Some 195,None);
  (190,None,Some 196); (192,Some 196,None)].
(** sPolynomial63, spolynomials.cpp 2198 *)
Definition kn_s63 := GS 63 16 154 36 159 [
  (31,None,Some 160); (32,None,Some 161); (34,Some 158,None); (37,None,Some 162); (71,None,Some 170); (72,None,Some 171); (74,None,Some 173);
  (75,None,Some 174); (86,None,Some 176); (93,None,Some 177); (107,None,Some 178); (108,None,Some 179); (109,None,Some 180); (110,None,Some 181);
  (111,None,Some 182); (116,None,Some 183); (122,None,Some 184); (129,None,Some 185); (137,None,Some 186); (152,None,Some 187); (153,None,Some 188);
  (154,None,Some 189); (155,None,Some 190); (156,None,Some 191); (161,None,Some 192); (167,None,Some 193); (168,Some 193,None); (174,None,Some 194);
  (182,None,Some 195); (191,None,Some 196)].
(** sPolynomial64, spolynomials.cpp 2233 *)
Definition kn_s64 := GS 64 16 154 38 161 [
  (34,Some 158,None); (35,None,Some 162); (64,None,Some 170); (65,None,Some 171); (69,None,Some 173); (73,None,Some 174); (84,None,Some 176);
  (91,None,Some 177); (100,None,Some 178); (101,None,Some 179); (102,None,Some 180); (105,None,Some 181); (109,None,Some 182); (114,None,Some 183);
  (120,None,Some 184); (127,None,Some 185); (135,None,Some 186); (145,None,Some 187); (146,None,Some 188); (147,None,Some 189); (150,None,Some 190);
  (154,None,Some 191); (159,None,Some 192); (165,None,Some 193); (168,Some 193,None); (172,None,Some 194); (180,None,Some 195); (189,None,Some 196)].
(** sPolynomial65, spolynomials.cpp 2266 *)
Definition kn_s65 := GS 65 31 153 35 158 [
  (30,None,Some 159); (31,Some 155,Some 160); (32,Some 156,Some 161); (33,Some 157,None); (34,Some 158,None); (35,Some 159,None); (36,Some 160,None);
  (37,Some 161,Some 162); (38,Some 162,None); (71,None,Some 170); (72,None,Some 171); (74,None,Some 173); (75,None,Some 174); (76,Some 170,None);
  (77,Some 171,None); (79,Some 173,None); (80,Some 174,None); (86,None,Some 176); (87,Some 176,None); (93,None,Some 177); (94,Some 177,None);
  (107,None,Some 178); (108,None,Some 179); (109,None,Some 180); (110,None,Some 181); (111,None,Some 182); (112,Some 178,None); (113,Some 179,None);
  (114,Some 180,None); (115,Some 181,None); (116,Some 182,Some 183); (117,Some 183,None); (122,None,Some 184); (123,Some 184,None);
  (129,None,Some 185); (130,Some 185,None); (137,None,Some 186); (138,Some 186,None); (152,None,Some 187); (153,None,Some 188); (154,None,Some 189);
  (155,None,Some 190); (156,None,Some 191); (157,Some 187,None); (158,Some 188,None); (159,Some 189,None); (160,Some 190,None);
  (161,Some 191,Some 192); (162,Some 192,None); (167,None,Some 193); (168,Some 193,None); (174,None,Some 194); (175,Some 194,None);
  (182,None,Some 195); (183,Some 195,None); (191,None,Some 196); (192,Some 196,None)].
Definition kn_spolys : list gop := [kn_s30; kn_s31; kn_s32; kn_s33; kn_s34; kn_s35; kn_s36; kn_s37; kn_s38; kn_s39; kn_s40; kn_s41; kn_s42; kn_s43; kn_s44; kn_s45; kn_s46; kn_s47; kn_s48; kn_s49; kn_s50; kn_s51; kn_s52; kn_s53; kn_s54; kn_s55; kn_s56; kn_s57; kn_s58; kn_s59; kn_s60; kn_s61; kn_s62; kn_s63; kn_s64; kn_s65].
(** the groebnerRow functions of src/relative_pose/modules/fivept_kneip/reductors.cpp: source row, target pivot
    column, source pivot column, remaining column pairs *)
Definition kn_reds : list (nat * nat * nat * list (nat * nat)) := [
  (* 0: groebnerRow30_000000000_f, line 36 *) (30, 152, 152, [(153,153);(155,155);(156,156);(157,157);(158,158);(159,159);(160,160);(161,161);(162,162);(170,170);(171,171);(173,173);(174,174);(176,176);(177,177);(178,178);(179,179);(180,180);(181,181);(182,182);(183,183);(184,184);(185,185);(186,186);(187,187);(188,188);(189,189);(190,190);(191,191);(192,192);(193,193);(194,194);(195,195);(196,196)]);
  (* 1: groebnerRow31_000000000_f, line 77 *) (31, 153, 153, [(155,155);(156,156);(157,157);(158,158);(159,159);(160,160);(161,161);(162,162);(170,170);(171,171);(173,173);(174,174);(176,176);(177,177);(178,178);(179,179);(180,180);(181,181);(182,182);(183,183);(184,184);(185,185);(186,186);(187,187);(188,188);(189,189);(190,190);(191,191);(192,192);(193,193);(194,194);(195,195);(196,196)]);
  (* 2: groebnerRow32_000000000_f, line 117 *) (32, 155, 155, [(156,156);(157,157);(158,158);(159,159);(160,160);(161,161);(162,162);(170,170);(171,171);(173,173);(174,174);(176,176);(177,177);(178,178);(179,179);(180,180);(181,181);(182,182);(183,183);(184,184);(185,185);(186,186);(187,187);(188,188);(189,189);(190,190);(191,191);(192,192);(193,193);(194,194);(195,195);(196,196)]);
  (* 3: groebnerRow33_000000000_f, line 156 *) (33, 156, 156, [(157,157);(158,158);(159,159);(160,160);(161,161);(162,162);(170,170);(171,171);(173,173);(174,174);(176,176);(177,177);(178,178);(179,179);(180,180);(181,181);(182,182);(183,183);(184,184);(185,185);(186,186);(187,187);(188,188);(189,189);(190,190);(191,191);(192,192);(193,193);(194,194);(195,195);(196,196)]);
  (* 4: groebnerRow34_000000000_f, line 194 *) (34, 157, 157, [(158,158);(159,159);(160,160);(161,161);(162,162);(170,170);(171,171);(173,173);(174,174);(176,176);(177,177);(178,178);(179,179);(180,180);(181,181);(182,182);(183,183);(184,184);(185,185);(186,186);(187,187);(188,188);(189,189);(190,190);(191,191);(192,192);(193,193);(194,194);(195,195);(196,196)]);
  (* 5: groebnerRow35_000000000_f, line 231 *) (35, 158, 158, [(159,159);(160,160);(161,161);(162,162);(170,170);(171,171);(173,173);(174,174);(176,176);(177,177);(178,178);(179,179);(180,180);(181,181);(182,182);(183,183);(184,184);(185,185);(186,186);(187,187);(188,188);(189,189);(190,190);(191,191);(192,192);(193,193);(194,194);(195,195);(196,196)]);
  (* 6: groebnerRow36_000000000_f, line 267 *) (36, 159, 159, [(160,160);(161,161);(162,162);(170,170);(171,171);(173,173);(174,174);(176,176);(177,177);(178,178);(179,179);(180,180);(181,181);(182,182);(183,183);(184,184);(185,185);(186,186);(187,187);(188,188);(189,189);(190,190);(191,191);(192,192);(193,193);(194,194);(195,195);(196,196)]);
  (* 7: groebnerRow37_000000000_f, line 302 *) (37, 160, 160, [(161,161);(162,162);(170,170);(171,171);(173,173);(174,174);(176,176);(177,177);(178,178);(179,179);(180,180);(181,181);(182,182);(183,183);(184,184);(185,185);(186,186);(187,187);(188,188);(189,189);(190,190);(191,191);(192,192);(193,193);(194,194);(195,195);(196,196)]);
  (* 8: groebnerRow38_000000000_f, line 336 *) (38, 161, 161, [(162,162);(170,170);(171,171);(173,173);(174,174);(176,176);(177,177);(178,178);(179,179);(180,180);(181,181);(182,182);(183,183);(184,184);(185,185);(186,186);(187,187);(188,188);(189,189);(190,190);(191,191);(192,192);(193,193);(194,194);(195,195);(196,196)]);
  (* 9: groebnerRow38_100000000_f, line 369 *) (38, 116, 161, [(117,162);(125,170);(126,171);(128,173);(129,174);(131,176);(132,177);(133,178);(134,179);(135,180);(136,181);(137,182);(138,183);(139,184);(140,185);(141,186);(178,187);(179,188);(180,189);(181,190);(182,191);(183,192);(184,193);(185,194);(186,195);(195,196)]);
  (* 10: groebnerRow39_100000000_f, line 402 *) (39, 117, 162, [(125,170);(126,171);(128,173);(129,174);(131,176);(132,177);(133,178);(134,179);(135,180);(136,181);(137,182);(138,183);(139,184);(140,185);(141,186);(178,187);(179,188);(180,189);(181,190);(182,191);(183,192);(184,193);(185,194);(186,195);(195,196)]);
  (* 11: groebnerRow39_000000000_f, line 434 *) (39, 162, 162, [(170,170);(171,171);(173,173);(174,174);(176,176);(177,177);(178,178);(179,179);(180,180);(181,181);(182,182);(183,183);(184,184);(185,185);(186,186);(187,187);(188,188);(189,189);(190,190);(191,191);(192,192);(193,193);(194,194);(195,195);(196,196)]);
  (* 12: groebnerRow40_000000000_f, line 466 *) (40, 89, 89, [(90,90);(92,92);(93,93);(95,95);(96,96);(125,125);(126,126);(128,128);(129,129);(131,131);(132,132);(133,133);(134,134);(135,135);(136,136);(137,137);(138,138);(139,139);(140,140);(141,141);(170,170);(171,171);(173,173);(174,174);(176,176);(177,177);(178,178);(179,179);(180,180);(181,181);(182,182);(183,183);(184,184);(185,185);(186,186);(187,187);(188,188);(189,189);(190,190);(191,191);(192,192);(193,193);(194,194);(195,195);(196,196)]);
  (* 13: groebnerRow33_100000000_f, line 518 *) (33, 111, 156, [(112,157);(113,158);(114,159);(115,160);(116,161);(117,162);(125,170);(126,171);(128,173);(129,174);(131,176);(132,177);(133,178);(134,179);(135,180);(136,181);(137,182);(138,183);(139,184);(140,185);(141,186);(178,187);(179,188);(180,189);(181,190);(182,191);(183,192);(184,193);(185,194);(186,195);(195,196)]);
  (* 14: groebnerRow34_100000000_f, line 556 *) (34, 112, 157, [(113,158);(114,159);(115,160);(116,161);(117,162);(125,170);(126,171);(128,173);(129,174);(131,176);(132,177);(133,178);(134,179);(135,180);(136,181);(137,182);(138,183);(139,184);(140,185);(141,186);(178,187);(179,188);(180,189);(181,190);(182,191);(183,192);(184,193);(185,194);(186,195);(195,196)]);
  (* 15: groebnerRow35_100000000_f, line 593 *) (35, 113, 158, [(114,159);(115,160);(116,161);(117,162);(125,170);(126,171);(128,173);(129,174);(131,176);(132,177);(133,178);(134,179);(135,180);(136,181);(137,182);(138,183);(139,184);(140,185);(141,186);(178,187);(179,188);(180,189);(181,190);(182,191);(183,192);(184,193);(185,194);(186,195);(195,196)]);
  (* 16: groebnerRow36_100000000_f, line 629 *) (36, 114, 159, [(115,160);(116,161);(117,162);(125,170);(126,171);(128,173);(129,174);(131,176);(132,177);(133,178);(134,179);(135,180);(136,181);(137,182);(138,183);(139,184);(140,185);(141,186);(178,187);(179,188);(180,189);(181,190);(182,191);(183,192);(184,193);(185,194);(186,195);(195,196)]);
  (* 17: groebnerRow37_100000000_f, line 664 *) (37, 115, 160, [(116,161);(117,162);(125,170);(126,171);(128,173);(129,174);(131,176);(132,177);(133,178);(134,179);(135,180);(136,181);(137,182);(138,183);(139,184);(140,185);(141,186);(178,187);(179,188);(180,189);(181,190);(182,191);(183,192);(184,193);(185,194);(186,195);(195,196)]);
  (* 18: groebnerRow41_000000000_f, line 698 *) (41, 90, 90, [(92,92);(93,93);(95,95);(96,96);(125,125);(126,126);(128,128);(129,129);(131,131);(132,132);(133,133);(134,134);(135,135);(136,136);(137,137);(138,138);(139,139);(140,140);(141,141);(170,170);(171,171);(173,173);(174,174);(176,176);(177,177);(178,178);(179,179);(180,180);(181,181);(182,182);(183,183);(184,184);(185,185);(186,186);(187,187);(188,188);(189,189);(190,190);(191,191);(192,192);(193,193);(194,194);(195,195);(196,196)]);
  (* 19: groebnerRow32_100000000_f, line 749 *) (32, 110, 155, [(111,156);(112,157);(113,158);(114,159);(115,160);(116,161);(117,162);(125,170);(126,171);(128,173);(129,174);(131,176);(132,177);(133,178);(134,179);(135,180);(136,181);(137,182);(138,183);(139,184);(140,185);(141,186);(178,187);(179,188);(180,189);(181,190);(182,191);(183,192);(184,193);(185,194);(186,195);(195,196)]);
  (* 20: groebnerRow42_000000000_f, line 788 *) (42, 92, 92, [(93,93);(95,95);(96,96);(125,125);(126,126);(128,128);(129,129);(131,131);(132,132);(133,133);(134,134);(135,135);(136,136);(137,137);(138,138);(139,139);(140,140);(141,141);(170,170);(171,171);(173,173);(174,174);(176,176);(177,177);(178,178);(179,179);(180,180);(181,181);(182,182);(183,183);(184,184);(185,185);(186,186);(187,187);(188,188);(189,189);(190,190);(191,191);(192,192);(193,193);(194,194);(195,195);(196,196)]);
  (* 21: groebnerRow43_000000000_f, line 838 *) (43, 93, 93, [(95,95);(96,96);(125,125);(126,126);(128,128);(129,129);(131,131);(132,132);(133,133);(134,134);(135,135);(136,136);(137,137);(138,138);(139,139);(140,140);(141,141);(170,170);(171,171);(173,173);(174,174);(176,176);(177,177);(178,178);(179,179);(180,180);(181,181);(182,182);(183,183);(184,184);(185,185);(186,186);(187,187);(188,188);(189,189);(190,190);(191,191);(192,192);(193,193);(194,194);(195,195);(196,196)]);
  (* 22: groebnerRow31_100000000_f, line 887 *) (31, 108, 153, [(110,155);(111,156);(112,157);(113,158);(114,159);(115,160);(116,161);(117,162);(125,170);(126,171);(128,173);(129,174);(131,176);(132,177);(133,178);(134,179);(135,180);(136,181);(137,182);(138,183);(139,184);(140,185);(141,186);(178,187);(179,188);(180,189);(181,190);(182,191);(183,192);(184,193);(185,194);(186,195);(195,196)]);
  (* 23: groebnerRow44_000000000_f, line 927 *) (44, 95, 95, [(96,96);(125,125);(126,126);(128,128);(129,129);(131,131);(132,132);(133,133);(134,134);(135,135);(136,136);(137,137);(138,138);(139,139);(140,140);(141,141);(170,170);(171,171);(173,173);(174,174);(176,176);(177,177);(178,178);(179,179);(180,180);(181,181);(182,182);(183,183);(184,184);(185,185);(186,186);(187,187);(188,188);(189,189);(190,190);(191,191);(192,192);(193,193);(194,194);(195,195);(196,196)]);
  (* 24: groebnerRow30_100000000_f, line 975 *) (30, 107, 152, [(108,153);(110,155);(111,156);(112,157);(113,158);(114,159);(115,160);(116,161);(117,162);(125,170);(126,171);(128,173);(129,174);(131,176);(132,177);(133,178);(134,179);(135,180);(136,181);(137,182);(138,183);(139,184);(140,185);(141,186);(178,187);(179,188);(180,189);(181,190);(182,191);(183,192);(184,193);(185,194);(186,195);(195,196)]);
  (* 25: groebnerRow45_000000000_f, line 1016 *) (45, 96, 96, [(125,125);(126,126);(128,128);(129,129);(131,131);(132,132);(133,133);(134,134);(135,135);(136,136);(137,137);(138,138);(139,139);(140,140);(141,141);(170,170);(171,171);(173,173);(174,174);(176,176);(177,177);(178,178);(179,179);(180,180);(181,181);(182,182);(183,183);(184,184);(185,185);(186,186);(187,187);(188,188);(189,189);(190,190);(191,191);(192,192);(193,193);(194,194);(195,195);(196,196)]);
  (* 26: groebnerRow46_000000000_f, line 1063 *) (46, 125, 125, [(126,126);(128,128);(129,129);(131,131);(132,132);(133,133);(134,134);(135,135);(136,136);(137,137);(138,138);(139,139);(140,140);(141,141);(170,170);(171,171);(173,173);(174,174);(176,176);(177,177);(178,178);(179,179);(180,180);(181,181);(182,182);(183,183);(184,184);(185,185);(186,186);(187,187);(188,188);(189,189);(190,190);(191,191);(192,192);(193,193);(194,194);(195,195);(196,196)]);
  (* 27: groebnerRow47_000000000_f, line 1109 *) (47, 126, 126, [(128,128);(129,129);(131,131);(132,132);(133,133);(134,134);(135,135);(136,136);(137,137);(138,138);(139,139);(140,140);(141,141);(170,170);(171,171);(173,173);(174,174);(176,176);(177,177);(178,178);(179,179);(180,180);(181,181);(182,182);(183,183);(184,184);(185,185);(186,186);(187,187);(188,188);(189,189);(190,190);(191,191);(192,192);(193,193);(194,194);(195,195);(196,196)]);
  (* 28: groebnerRow48_000000000_f, line 1154 *) (48, 128, 128, [(129,129);(131,131);(132,132);(133,133);(134,134);(135,135);(136,136);(137,137);(138,138);(139,139);(140,140);(141,141);(170,170);(171,171);(173,173);(174,174);(176,176);(177,177);(178,178);(179,179);(180,180);(181,181);(182,182);(183,183);(184,184);(185,185);(186,186);(187,187);(188,188);(189,189);(190,190);(191,191);(192,192);(193,193);(194,194);(195,195);(196,196)]);
  (* 29: groebnerRow49_000000000_f, line 1198 *) (49, 129, 129, [(131,131);(132,132);(133,133);(134,134);(135,135);(136,136);(137,137);(138,138);(139,139);(140,140);(141,141);(170,170);(171,171);(173,173);(174,174);(176,176);(177,177);(178,178);(179,179);(180,180);(181,181);(182,182);(183,183);(184,184);(185,185);(186,186);(187,187);(188,188);(189,189);(190,190);(191,191);(192,192);(193,193);(194,194);(195,195);(196,196)]);
  (* 30: groebnerRow50_000000000_f, line 1241 *) (50, 131, 131, [(132,132);(133,133);(134,134);(135,135);(136,136);(137,137);(138,138);(139,139);(140,140);(141,141);(170,170);(171,171);(173,173);(174,174);(176,176);(177,177);(178,178);(179,179);(180,180);(181,181);(182,182);(183,183);(184,184);(185,185);(186,186);(187,187);(188,188);(189,189);(190,190);(191,191);(192,192);(193,193);(194,194);(195,195);(196,196)]);
  (* 31: groebnerRow32_010000000_f, line 1283 *) (32, 74, 155, [(75,156);(76,157);(77,158);(78,159);(79,160);(80,161);(81,162);(89,170);(90,171);(92,173);(93,174);(95,176);(96,177);(125,178);(126,179);(127,180);(128,181);(129,182);(130,183);(131,184);(132,185);(140,186);(170,187);(171,188);(172,189);(173,190);(174,191);(175,192);(176,193);(177,194);(185,195);(194,196)]);
  (* 32: groebnerRow33_010000000_f, line 1322 *) (33, 75, 156, [(76,157);(77,158);(78,159);(79,160);(80,161);(81,162);(89,170);(90,171);(92,173);(93,174);(95,176);(96,177);(125,178);(126,179);(127,180);(128,181);(129,182);(130,183);(131,184);(132,185);(140,186);(170,187);(171,188);(172,189);(173,190);(174,191);(175,192);(176,193);(177,194);(185,195);(194,196)]);
  (* 33: groebnerRow51_000000000_f, line 1360 *) (51, 132, 132, [(133,133);(134,134);(135,135);(136,136);(137,137);(138,138);(139,139);(140,140);(141,141);(170,170);(171,171);(173,173);(174,174);(176,176);(177,177);(178,178);(179,179);(180,180);(181,181);(182,182);(183,183);(184,184);(185,185);(186,186);(187,187);(188,188);(189,189);(190,190);(191,191);(192,192);(193,193);(194,194);(195,195);(196,196)]);
  (* 34: groebnerRow52_000000000_f, line 1401 *) (52, 133, 133, [(134,134);(135,135);(136,136);(137,137);(138,138);(139,139);(140,140);(141,141);(170,170);(171,171);(173,173);(174,174);(176,176);(177,177);(178,178);(179,179);(180,180);(181,181);(182,182);(183,183);(184,184);(185,185);(186,186);(187,187);(188,188);(189,189);(190,190);(191,191);(192,192);(193,193);(194,194);(195,195);(196,196)]);
  (* 35: groebnerRow30_010000000_f, line 1441 *) (30, 71, 152, [(72,153);(74,155);(75,156);(76,157);(77,158);(78,159);(79,160);(80,161);(81,162);(89,170);(90,171);(92,173);(93,174);(95,176);(96,177);(125,178);(126,179);(127,180);(128,181);(129,182);(130,183);(131,184);(132,185);(140,186);(170,187);(171,188);(172,189);(173,190);(174,191);(175,192);(176,193);(177,194);(185,195);(194,196)]);
  (* 36: groebnerRow31_010000000_f, line 1482 *) (31, 72, 153, [(74,155);(75,156);(76,157);(77,158);(78,159);(79,160);(80,161);(81,162);(89,170);(90,171);(92,173);(93,174);(95,176);(96,177);(125,178);(126,179);(127,180);(128,181);(129,182);(130,183);(131,184);(132,185);(140,186);(170,187);(171,188);(172,189);(173,190);(174,191);(175,192);(176,193);(177,194);(185,195);(194,196)]);
  (* 37: groebnerRow53_000000000_f, line 1522 *) (53, 134, 134, [(135,135);(136,136);(137,137);(138,138);(139,139);(140,140);(141,141);(170,170);(171,171);(173,173);(174,174);(176,176);(177,177);(178,178);(179,179);(180,180);(181,181);(182,182);(183,183);(184,184);(185,185);(186,186);(187,187);(188,188);(189,189);(190,190);(191,191);(192,192);(193,193);(194,194);(195,195);(196,196)]);
  (* 38: groebnerRow39_000100000_f, line 1561 *) (39, 38, 162, [(76,170);(77,171);(79,173);(80,174);(87,176);(94,177);(112,178);(113,179);(114,180);(115,181);(116,182);(117,183);(123,184);(130,185);(138,186);(157,187);(158,188);(159,189);(160,190);(161,191);(162,192);(168,193);(175,194);(183,195);(192,196)]);
  (* 39: groebnerRow54_000000000_f, line 1593 *) (54, 135, 135, [(136,136);(137,137);(138,138);(139,139);(140,140);(141,141);(170,170);(171,171);(173,173);(174,174);(176,176);(177,177);(178,178);(179,179);(180,180);(181,181);(182,182);(183,183);(184,184);(185,185);(186,186);(187,187);(188,188);(189,189);(190,190);(191,191);(192,192);(193,193);(194,194);(195,195);(196,196)]);
  (* 40: groebnerRow38_000100000_f, line 1631 *) (38, 37, 161, [(38,162);(76,170);(77,171);(79,173);(80,174);(87,176);(94,177);(112,178);(113,179);(114,180);(115,181);(116,182);(117,183);(123,184);(130,185);(138,186);(157,187);(158,188);(159,189);(160,190);(161,191);(162,192);(168,193);(175,194);(183,195);(192,196)]);
  (* 41: groebnerRow55_000000000_f, line 1664 *) (55, 136, 136, [(137,137);(138,138);(139,139);(140,140);(141,141);(170,170);(171,171);(173,173);(174,174);(176,176);(177,177);(178,178);(179,179);(180,180);(181,181);(182,182);(183,183);(184,184);(185,185);(186,186);(187,187);(188,188);(189,189);(190,190);(191,191);(192,192);(193,193);(194,194);(195,195);(196,196)]);
  (* 42: groebnerRow37_000100000_f, line 1701 *) (37, 36, 160, [(37,161);(38,162);(76,170);(77,171);(79,173);(80,174);(87,176);(94,177);(112,178);(113,179);(114,180);(115,181);(116,182);(117,183);(123,184);(130,185);(138,186);(157,187);(158,188);(159,189);(160,190);(161,191);(162,192);(168,193);(175,194);(183,195);(192,196)]);
  (* 43: groebnerRow56_000000000_f, line 1735 *) (56, 137, 137, [(138,138);(139,139);(140,140);(141,141);(170,170);(171,171);(173,173);(174,174);(176,176);(177,177);(178,178);(179,179);(180,180);(181,181);(182,182);(183,183);(184,184);(185,185);(186,186);(187,187);(188,188);(189,189);(190,190);(191,191);(192,192);(193,193);(194,194);(195,195);(196,196)]);
  (* 44: groebnerRow36_000100000_f, line 1771 *) (36, 35, 159, [(36,160);(37,161);(38,162);(76,170);(77,171);(79,173);(80,174);(87,176);(94,177);(112,178);(113,179);(114,180);(115,181);(116,182);(117,183);(123,184);(130,185);(138,186);(157,187);(158,188);(159,189);(160,190);(161,191);(162,192);(168,193);(175,194);(183,195);(192,196)]);
  (* 45: groebnerRow57_000000000_f, line 1806 *) (57, 138, 138, [(139,139);(140,140);(141,141);(170,170);(171,171);(173,173);(174,174);(176,176);(177,177);(178,178);(179,179);(180,180);(181,181);(182,182);(183,183);(184,184);(185,185);(186,186);(187,187);(188,188);(189,189);(190,190);(191,191);(192,192);(193,193);(194,194);(195,195);(196,196)]);
  (* 46: groebnerRow35_000100000_f, line 1841 *) (35, 34, 158, [(35,159);(36,160);(37,161);(38,162);(76,170);(77,171);(79,173);(80,174);(87,176);(94,177);(112,178);(113,179);(114,180);(115,181);(116,182);(117,183);(123,184);(130,185);(138,186);(157,187);(158,188);(159,189);(160,190);(161,191);(162,192);(168,193);(175,194);(183,195);(192,196)]);
  (* 47: groebnerRow58_000000000_f, line 1877 *) (58, 139, 139, [(140,140);(141,141);(170,170);(171,171);(173,173);(174,174);(176,176);(177,177);(178,178);(179,179);(180,180);(181,181);(182,182);(183,183);(184,184);(185,185);(186,186);(187,187);(188,188);(189,189);(190,190);(191,191);(192,192);(193,193);(194,194);(195,195);(196,196)]);
  (* 48: groebnerRow34_000100000_f, line 1911 *) (34, 33, 157, [(34,158);(35,159);(36,160);(37,161);(38,162);(76,170);(77,171);(79,173);(80,174);(87,176);(94,177);(112,178);(113,179);(114,180);(115,181);(116,182);(117,183);(123,184);(130,185);(138,186);(157,187);(158,188);(159,189);(160,190);(161,191);(162,192);(168,193);(175,194);(183,195);(192,196)]);
  (* 49: groebnerRow59_000000000_f, line 1948 *) (59, 140, 140, [(141,141);(170,170);(171,171);(173,173);(174,174);(176,176);(177,177);(178,178);(179,179);(180,180);(181,181);(182,182);(183,183);(184,184);(185,185);(186,186);(187,187);(188,188);(189,189);(190,190);(191,191);(192,192);(193,193);(194,194);(195,195);(196,196)]);
  (* 50: groebnerRow33_000100000_f, line 1981 *) (33, 32, 156, [(33,157);(34,158);(35,159);(36,160);(37,161);(38,162);(76,170);(77,171);(79,173);(80,174);(87,176);(94,177);(112,178);(113,179);(114,180);(115,181);(116,182);(117,183);(123,184);(130,185);(138,186);(157,187);(158,188);(159,189);(160,190);(161,191);(162,192);(168,193);(175,194);(183,195);(192,196)]);
  (* 51: groebnerRow60_000000000_f, line 2019 *) (60, 141, 141, [(170,170);(171,171);(173,173);(174,174);(176,176);(177,177);(178,178);(179,179);(180,180);(181,181);(182,182);(183,183);(184,184);(185,185);(186,186);(187,187);(188,188);(189,189);(190,190);(191,191);(192,192);(193,193);(194,194);(195,195);(196,196)]);
  (* 52: groebnerRow61_010000000_f, line 2051 *) (61, 89, 170, [(90,171);(92,173);(93,174);(95,176);(96,177);(125,178);(126,179);(127,180);(128,181);(129,182);(130,183);(131,184);(132,185);(140,186);(170,187);(171,188);(172,189);(173,190);(174,191);(175,192);(176,193);(177,194);(185,195);(194,196)]);
  (* 53: groebnerRow61_100000000_f, line 2082 *) (61, 125, 170, [(126,171);(128,173);(129,174);(131,176);(132,177);(133,178);(134,179);(135,180);(136,181);(137,182);(138,183);(139,184);(140,185);(141,186);(178,187);(179,188);(180,189);(181,190);(182,191);(183,192);(184,193);(185,194);(186,195);(195,196)]);
  (* 54: groebnerRow61_000000000_f, line 2113 *) (61, 170, 170, [(171,171);(173,173);(174,174);(176,176);(177,177);(178,178);(179,179);(180,180);(181,181);(182,182);(183,183);(184,184);(185,185);(186,186);(187,187);(188,188);(189,189);(190,190);(191,191);(192,192);(193,193);(194,194);(195,195);(196,196)]);
  (* 55: groebnerRow32_000100000_f, line 2144 *) (32, 31, 155, [(32,156);(33,157);(34,158);(35,159);(36,160);(37,161);(38,162);(76,170);(77,171);(79,173);(80,174);(87,176);(94,177);(112,178);(113,179);(114,180);(115,181);(116,182);(117,183);(123,184);(130,185);(138,186);(157,187);(158,188);(159,189);(160,190);(161,191);(162,192);(168,193);(175,194);(183,195);(192,196)]);
  (* 56: groebnerRow62_010000000_f, line 2183 *) (62, 90, 171, [(92,173);(93,174);(95,176);(96,177);(125,178);(126,179);(127,180);(128,181);(129,182);(130,183);(131,184);(132,185);(140,186);(170,187);(171,188);(172,189);(173,190);(174,191);(175,192);(176,193);(177,194);(185,195);(194,196)]);
  (* 57: groebnerRow62_100000000_f, line 2213 *) (62, 126, 171, [(128,173);(129,174);(131,176);(132,177);(133,178);(134,179);(135,180);(136,181);(137,182);(138,183);(139,184);(140,185);(141,186);(178,187);(179,188);(180,189);(181,190);(182,191);(183,192);(184,193);(185,194);(186,195);(195,196)]);
  (* 58: groebnerRow62_000000000_f, line 2243 *) (62, 171, 171, [(173,173);(174,174);(176,176);(177,177);(178,178);(179,179);(180,180);(181,181);(182,182);(183,183);(184,184);(185,185);(186,186);(187,187);(188,188);(189,189);(190,190);(191,191);(192,192);(193,193);(194,194);(195,195);(196,196)]);
  (* 59: groebnerRow63_100000000_f, line 2273 *) (63, 128, 173, [(129,174);(131,176);(132,177);(133,178);(134,179);(135,180);(136,181);(137,182);(138,183);(139,184);(140,185);(141,186);(178,187);(179,188);(180,189);(181,190);(182,191);(183,192);(184,193);(185,194);(186,195);(195,196)]);
  (* 60: groebnerRow63_000000000_f, line 2302 *) (63, 173, 173, [(174,174);(176,176);(177,177);(178,178);(179,179);(180,180);(181,181);(182,182);(183,183);(184,184);(185,185);(186,186);(187,187);(188,188);(189,189);(190,190);(191,191);(192,192);(193,193);(194,194);(195,195);(196,196)]);
  (* 61: groebnerRow63_010000000_f, line 2331 *) (63, 92, 173, [(93,174);(95,176);(96,177);(125,178);(126,179);(127,180);(128,181);(129,182);(130,183);(131,184);(132,185);(140,186);(170,187);(171,188);(172,189);(173,190);(174,191);(175,192);(176,193);(177,194);(185,195);(194,196)]);
  (* 62: groebnerRow64_010000000_f, line 2360 *) (64, 93, 174, [(95,176);(96,177);(125,178);(126,179);(127,180);(128,181);(129,182);(130,183);(131,184);(132,185);(140,186);(170,187);(171,188);(172,189);(173,190);(174,191);(175,192);(176,193);(177,194);(185,195);(194,196)]);
  (* 63: groebnerRow64_100000000_f, line 2388 *) (64, 129, 174, [(131,176);(132,177);(133,178);(134,179);(135,180);(136,181);(137,182);(138,183);(139,184);(140,185);(141,186);(178,187);(179,188);(180,189);(181,190);(182,191);(183,192);(184,193);(185,194);(186,195);(195,196)]);
  (* 64: groebnerRow64_000000000_f, line 2416 *) (64, 174, 174, [(176,176);(177,177);(178,178);(179,179);(180,180);(181,181);(182,182);(183,183);(184,184);(185,185);(186,186);(187,187);(188,188);(189,189);(190,190);(191,191);(192,192);(193,193);(194,194);(195,195);(196,196)])].
(** the inline reductions of src/relative_pose/modules/fivept_kneip/code.cpp: target pivot column, sign of the
    factor, source row, column pairs *)
Definition kn_inls : list (nat * bool * nat * list (nat * nat)) := [
  (* 0: first at line 42 *) (1, true, 19, [(8,152);(179,195)]);
  (* 1: first at line 46 *) (2, false, 14, [(11,153);(24,159)]);
  (* 2: first at line 50 *) (3, true, 19, [(10,152);(180,195)]);
  (* 3: first at line 54 *) (4, false, 22, [(36,162);(136,186);(190,196)]);
  (* 4: first at line 59 *) (5, false, 13, [(17,156);(34,162);(188,196)]);
  (* 5: first at line 64 *) (6, false, 13, [(18,156);(35,162);(189,196)]);
  (* 6: first at line 69 *) (10, true, 16, [(20,158);(163,193)]);
  (* 7: first at line 73 *) (11, true, 16, [(21,158);(164,193)]);
  (* 8: first at line 77 *) (12, true, 16, [(23,158);(165,193)]);
  (* 9: first at line 81 *) (13, false, 14, [(17,153);(30,159)]);
  (* 10: first at line 85 *) (14, true, 19, [(16,152);(182,195)]);
  (* 11: first at line 89 *) (15, true, 16, [(26,158);(166,193)]);
  (* 12: first at line 93 *) (18, true, 16, [(29,158);(167,193)]);
  (* 13: first at line 97 *) (19, false, 15, [(21,144);(24,147);(192,196)]);
  (* 14: first at line 102 *) (22, false, 24, [(36,160);(123,184)]);
  (* 15: first at line 106 *) (25, false, 14, [(29,153);(35,159)]);
  (* 16: first at line 110 *) (26, true, 19, [(28,152);(183,195)]);
  (* 17: first at line 114 *) (27, false, 28, [(33,157);(175,194)]);
  (* 18: first at line 118 *) (30, true, 16, [(34,158);(168,193)]);
  (* 19: first at line 122 *) (39, false, 12, [(63,171);(101,180)]);
  (* 20: first at line 126 *) (40, false, 20, [(62,170);(158,192)]);
  (* 21: first at line 130 *) (41, false, 12, [(65,171);(102,180)]);
  (* 22: first at line 134 *) (42, false, 20, [(64,170);(159,192)]);
  (* 23: first at line 138 *) (43, false, 22, [(56,162);(139,186);(193,196)]);
  (* 24: first at line 143 *) (44, false, 11, [(72,174);(113,183)]);
  (* 25: first at line 147 *) (45, false, 11, [(73,174);(114,183)]);
  (* 26: first at line 151 *) (46, false, 12, [(72,171);(109,180)]);
  (* 27: first at line 155 *) (47, false, 20, [(71,170);(161,192)]);
  (* 28: first at line 159 *) (48, true, 16, [(52,158);(169,193)]);
  (* 29: first at line 163 *) (49, false, 11, [(75,174);(116,183)]);
  (* 30: first at line 167 *) (50, true, 21, [(74,173);(154,189)]);
  (* 31: first at line 171 *) (51, false, 12, [(77,171);(114,180)]);
  (* 32: first at line 175 *) (52, false, 20, [(76,170);(162,192)]);
  (* 33: first at line 179 *) (53, false, 27, [(105,181);(146,188)]);
  (* 34: first at line 183 *) (54, false, 11, [(80,174);(117,183)]);
  (* 35: first at line 187 *) (55, true, 21, [(79,173);(159,189)]);
  (* 36: first at line 191 *) (56, false, 27, [(115,181);(158,188)]);
  (* 37: first at line 195 *) (57, false, 10, [(90,177);(134,186);(188,196)]);
  (* 38: first at line 200 *) (58, false, 10, [(91,177);(135,186);(189,196)]);
  (* 39: first at line 205 *) (59, false, 10, [(93,177);(137,186);(191,196)]);
  (* 40: first at line 210 *) (60, false, 10, [(94,177);(138,186);(192,196)]);
  (* 41: first at line 215 *) (61, false, 15, [(63,144);(66,147);(194,196)]);
  (* 42: first at line 220 *) (64, false, 17, [(98,179);(148,190)]);
  (* 43: first at line 224 *) (65, false, 17, [(99,179);(149,190)]);
  (* 44: first at line 228 *) (66, false, 17, [(101,179);(150,190)]);
  (* 45: first at line 232 *) (67, false, 14, [(72,153);(78,159)]);
  (* 46: first at line 236 *) (68, true, 19, [(71,152);(185,195)]);
  (* 47: first at line 240 *) (69, false, 17, [(104,179);(151,190)]);
  (* 48: first at line 244 *) (70, false, 13, [(75,156);(81,162);(194,196)]);
  (* 49: first at line 249 *) (73, true, 16, [(77,158);(176,193)]);
  (* 50: first at line 253 *) (76, true, 18, [(107,182);(142,187)]);
  (* 51: first at line 257 *) (77, true, 18, [(108,182);(143,187)]);
  (* 52: first at line 261 *) (78, false, 17, [(113,179);(160,190)]);
  (* 53: first at line 265 *) (79, true, 18, [(110,182);(148,187)]);
  (* 54: first at line 269 *) (80, true, 18, [(111,182);(152,187)]);
  (* 55: first at line 273 *) (81, true, 18, [(116,182);(157,187)]);
  (* 56: first at line 277 *) (82, false, 12, [(90,171);(127,180)]);
  (* 57: first at line 281 *) (83, false, 20, [(89,170);(175,192)]);
  (* 58: first at line 285 *) (84, false, 17, [(119,179);(166,190)]);
  (* 59: first at line 289 *) (85, false, 11, [(93,174);(130,183)]);
  (* 60: first at line 293 *) (86, true, 21, [(92,173);(172,189)]);
  (* 61: first at line 297 *) (87, true, 18, [(122,182);(163,187)]);
  (* 62: first at line 301 *) (91, false, 17, [(126,179);(173,190)]);
  (* 63: first at line 305 *) (94, true, 18, [(129,182);(170,187)]);
  (* 64: first at line 309 *) (97, false, 15, [(99,144);(102,147);(195,196)]);
  (* 65: first at line 314 *) (100, false, 24, [(115,160);(139,184)]);
  (* 66: first at line 318 *) (103, false, 14, [(108,153);(114,159)]);
  (* 67: first at line 322 *) (104, true, 19, [(107,152);(186,195)]);
  (* 68: first at line 326 *) (105, false, 28, [(112,157);(185,194)]);
  (* 69: first at line 330 *) (106, false, 13, [(111,156);(117,162);(195,196)]);
  (* 70: first at line 335 *) (109, true, 16, [(113,158);(184,193)]);
  (* 71: first at line 339 *) (118, false, 12, [(126,171);(135,180)]);
  (* 72: first at line 343 *) (119, false, 20, [(125,170);(183,192)]);
  (* 73: first at line 347 *) (120, true, 29, [(133,178);(182,191)]);
  (* 74: first at line 351 *) (121, false, 11, [(129,174);(138,183)]);
  (* 75: first at line 355 *) (122, true, 21, [(128,173);(180,189)]);
  (* 76: first at line 359 *) (123, false, 27, [(136,181);(179,188)]);
  (* 77: first at line 363 *) (127, false, 17, [(134,179);(181,190)]);
  (* 78: first at line 367 *) (130, true, 18, [(137,182);(178,187)]);
  (* 79: first at line 371 *) (142, false, 15, [(144,144);(147,147);(196,196)]);
  (* 80: first at line 376 *) (143, false, 26, [(155,155);(176,176)]);
  (* 81: first at line 380 *) (144, false, 25, [(156,156);(177,177);(196,196)]);
  (* 82: first at line 385 *) (146, false, 23, [(161,161);(185,185)]);
  (* 83: first at line 389 *) (147, false, 22, [(162,162);(186,186);(196,196)]);
  (* 84: first at line 394 *) (148, false, 14, [(153,153);(159,159)]);
  (* 85: first at line 398 *) (149, true, 19, [(152,152);(195,195)]);
  (* 86: first at line 402 *) (150, false, 28, [(157,157);(194,194)]);
  (* 87: first at line 406 *) (151, false, 13, [(156,156);(162,162);(196,196)]);
  (* 88: first at line 411 *) (154, true, 16, [(158,158);(193,193)]);
  (* 89: first at line 415 *) (163, false, 12, [(171,171);(180,180)]);
  (* 90: first at line 419 *) (164, false, 20, [(170,170);(192,192)]);
  (* 91: first at line 423 *) (165, true, 29, [(178,178);(191,191)]);
  (* 92: first at line 427 *) (166, false, 11, [(174,174);(183,183)]);
  (* 93: first at line 431 *) (167, true, 21, [(173,173);(189,189)]);
  (* 94: first at line 435 *) (168, false, 27, [(181,181);(188,188)]);
  (* 95: first at line 439 *) (169, false, 10, [(177,177);(186,186);(196,196)]);
  (* 96: first at line 444 *) (172, false, 17, [(179,179);(190,190)]);
  (* 97: first at line 448 *) (175, true, 18, [(182,182);(187,187)]);
  (* 98: first at line 3813 *) (7, false, 15, [(9,144);(12,147);(191,196)]);
  (* 99: first at line 4550 *) (88, false, 10, [(96,177);(140,186);(194,196)]);
  (* 100: first at line 4588 *) (124, false, 10, [(132,177);(141,186);(195,196)]);
  (* 101: first at line 6495 *) (98, false, 26, [(110,155);(131,176)]);
  (* 102: first at line 6499 *) (99, false, 25, [(111,156);(132,177);(195,196)]);
  (* 103: first at line 6508 *) (101, false, 23, [(116,161);(140,185)]);
  (* 104: first at line 6512 *) (102, false, 22, [(117,162);(141,186);(195,196)]);
  (* 105: first at line 6588 *) (145, false, 24, [(160,160);(184,184)]);
  (* 106: first at line 6662 *) (62, false, 26, [(74,155);(95,176)]);
  (* 107: first at line 6666 *) (63, false, 25, [(75,156);(96,177);(194,196)])].
(** the statement groups that follow each of sPolynomial30 ... sPolynomial38,
    src/relative_pose/modules/fivept_kneip/code.cpp 42-... *)
Definition kn_cubic (t : nat) : list kinstr := map (fun k => CI k t) [
  0; 1; 2; 3; 4; 5; 6; 7; 8; 9; 10; 11; 12; 13; 14; 15; 16; 17; 18; 19; 20; 21; 22; 23; 24; 25; 26; 27; 28; 29; 30; 31; 32; 33; 34; 35; 36; 37; 38;
  39; 40; 41; 42; 43; 44; 45; 46; 47; 48; 49; 50; 51; 52; 53; 54; 55; 56; 57; 58; 59; 60; 61; 62; 63; 64; 65; 66; 67; 68; 69; 70; 71; 72; 73; 74; 75;
  76; 77; 78; 79; 80; 81; 82; 83; 84; 85; 86; 87].
(** the rest of the block of sPolynomial30, code.cpp 411-... *)
Definition kn_rest30 : list kinstr := [
  CI 88 30; CI 89 30; CI 90 30; CI 91 30; CI 92 30; CI 93 30; CI 94 30; CI 95 30; CI 96 30; CI 97 30].
(** the rest of the block of sPolynomial31, code.cpp 823-... *)
Definition kn_rest31 : list kinstr := [
  CR 0 31; CI 88 31; CI 89 31; CI 90 31; CI 91 31; CI 92 31; CI 93 31; CI 94 31; CI 95 31; CI 96 31; CI 97 31].
(** the rest of the block of sPolynomial32, code.cpp 1236-... *)
Definition kn_rest32 : list kinstr := [
  CR 0 32; CR 1 32; CI 88 32; CI 89 32; CI 90 32; CI 91 32; CI 92 32; CI 93 32; CI 94 32; CI 95 32; CI 96 32; CI 97 32].
(** the rest of the block of sPolynomial33, code.cpp 1650-... *)
Definition kn_rest33 : list kinstr := [
  CR 0 33; CR 1 33; CI 88 33; CR 2 33; CI 89 33; CI 90 33; CI 91 33; CI 92 33; CI 93 33; CI 94 33; CI 95 33; CI 96 33; CI 97 33].
(** the rest of the block of sPolynomial34, code.cpp 2065-... *)
Definition kn_rest34 : list kinstr := [
  CR 0 34; CR 1 34; CI 88 34; CR 2 34; CR 3 34; CI 89 34; CI 90 34; CI 91 34; CI 92 34; CI 93 34; CI 94 34; CI 95 34; CI 96 34; CI 97 34].
(** the rest of the block of sPolynomial35, code.cpp 2481-... *)
Definition kn_rest35 : list kinstr := [
  CR 0 35; CR 1 35; CI 88 35; CR 2 35; CR 3 35; CR 4 35; CI 89 35; CI 90 35; CI 91 35; CI 92 35; CI 93 35; CI 94 35; CI 95 35; CI 96 35; CI 97 35].
(** the rest of the block of sPolynomial36, code.cpp 2898-... *)
Definition kn_rest36 : list kinstr := [
  CR 0 36; CR 1 36; CI 88 36; CR 2 36; CR 3 36; CR 4 36; CR 5 36; CI 89 36; CI 90 36; CI 91 36; CI 92 36; CI 93 36; CI 94 36; CI 95 36; CI 96 36;
  CI 97 36].
(** the rest of the block of sPolynomial37, code.cpp 3316-... *)
Definition kn_rest37 : list kinstr := [
  CR 0 37; CR 1 37; CI 88 37; CR 2 37; CR 3 37; CR 4 37; CR 5 37; CR 6 37; CI 89 37; CI 90 37; CI 91 37; CI 92 37; CI 93 37; CI 94 37; CI 95 37;
  CI 96 37; CI 97 37].
(** the rest of the block of sPolynomial38, code.cpp 3735-... *)
Definition kn_rest38 : list kinstr := [
  CR 0 38; CR 1 38; CI 88 38; CR 2 38; CR 3 38; CR 4 38; CR 5 38; CR 6 38; CR 7 38; CI 89 38; CI 90 38; CI 91 38; CI 92 38; CI 93 38; CI 94 38;
  CI 95 38; CI 96 38; CI 97 38].
(** the inline reductions after sPolynomial39, code.cpp 3786-... *)
Definition kn_cubic39 : list kinstr := [
  CI 0 39; CI 1 39; CI 2 39; CI 3 39; CI 4 39; CI 5 39; CI 98 39; CI 6 39; CI 7 39; CI 8 39; CI 9 39; CI 10 39; CI 11 39; CI 12 39; CI 13 39;
  CI 14 39; CI 15 39; CI 16 39; CI 17 39; CI 18 39; CI 19 39; CI 20 39; CI 21 39; CI 22 39; CI 23 39; CI 24 39; CI 25 39; CI 26 39; CI 27 39;
  CI 28 39; CI 29 39; CI 30 39; CI 31 39; CI 32 39; CI 33 39; CI 34 39; CI 35 39; CI 36 39; CI 37 39; CI 38 39; CI 39 39; CI 40 39; CI 41 39;
  CI 42 39; CI 43 39; CI 44 39; CI 45 39; CI 46 39; CI 47 39; CI 48 39; CI 49 39; CI 50 39; CI 51 39; CI 52 39; CI 53 39; CI 54 39; CI 55 39;
  CI 56 39; CI 57 39; CI 58 39; CI 59 39; CI 60 39; CI 61 39; CI 62 39; CI 63 39; CI 64 39; CI 65 39; CI 66 39; CI 67 39; CI 68 39; CI 69 39;
  CI 70 39; CI 71 39; CI 72 39; CI 73 39; CI 74 39; CI 75 39; CI 76 39; CI 77 39; CI 78 39; CI 79 39; CI 80 39; CI 81 39; CI 82 39; CI 83 39;
  CI 84 39; CI 85 39; CI 86 39; CI 87 39].
(** the rest of the block of sPolynomial39, code.cpp 4160-... *)
Definition kn_rest39 : list kinstr := [
  CR 0 39; CR 1 39; CI 88 39; CR 2 39; CR 3 39; CR 4 39; CR 5 39; CR 6 39; CR 7 39; CR 8 39; CI 89 39; CI 90 39; CI 91 39; CI 92 39; CI 93 39;
  CI 94 39; CI 95 39; CI 96 39; CI 97 39].
(** sPolynomial40 to the end, code.cpp 4211-... *)
Definition kn_tail : list kinstr := [
  CS 10; CR 9 40; CR 10 40; CI 77 40; CI 78 40; CR 4 40; CR 5 40; CR 6 40; CR 7 40; CR 8 40; CR 11 40; CI 96 40; CI 97 40; CS 11; CI 55 41; CR 12 41;
  CR 13 41; CR 14 41; CR 15 41; CR 16 41; CR 17 41; CR 9 41; CR 10 41; CI 77 41; CI 78 41; CR 0 41; CR 1 41; CR 2 41; CR 3 41; CR 4 41; CR 5 41;
  CR 6 41; CR 7 41; CR 8 41; CR 11 41; CI 96 41; CI 97 41; CS 12; CI 54 42; CI 55 42; CR 12 42; CR 18 42; CR 19 42; CR 13 42; CR 14 42; CR 15 42;
  CR 16 42; CR 17 42; CR 9 42; CR 10 42; CI 77 42; CI 78 42; CI 84 42; CR 0 42; CR 1 42; CR 2 42; CR 3 42; CR 4 42; CR 5 42; CR 6 42; CR 7 42;
  CR 8 42; CR 11 42; CI 96 42; CI 97 42; CS 13; CI 53 43; CI 54 43; CI 55 43; CR 12 43; CR 18 43; CR 20 43; CR 19 43; CR 13 43; CR 14 43; CR 15 43;
  CR 16 43; CR 17 43; CR 9 43; CR 10 43; CI 77 43; CI 78 43; CI 84 43; CR 0 43; CR 1 43; CR 2 43; CR 3 43; CR 4 43; CR 5 43; CR 6 43; CR 7 43;
  CR 8 43; CR 11 43; CI 96 43; CI 97 43; CS 14; CI 52 44; CI 53 44; CI 54 44; CI 55 44; CR 12 44; CR 18 44; CR 20 44; CR 21 44; CR 22 44; CR 19 44;
  CR 13 44; CR 14 44; CR 15 44; CR 16 44; CR 17 44; CR 9 44; CR 10 44; CI 77 44; CI 78 44; CI 80 44; CI 84 44; CR 0 44; CR 1 44; CR 2 44; CR 3 44;
  CR 4 44; CR 5 44; CR 6 44; CR 7 44; CR 8 44; CR 11 44; CI 96 44; CI 97 44; CS 15; CI 51 45; CI 52 45; CI 53 45; CI 54 45; CI 55 45; CR 12 45;
  CR 18 45; CR 20 45; CR 21 45; CR 23 45; CR 24 45; CR 22 45; CR 19 45; CR 13 45; CR 14 45; CR 15 45; CR 16 45; CR 17 45; CR 9 45; CR 10 45;
  CI 77 45; CI 78 45; CI 79 45; CI 80 45; CI 81 45; CI 83 45; CI 84 45; CR 0 45; CR 1 45; CR 2 45; CR 3 45; CR 4 45; CR 5 45; CR 6 45; CR 7 45;
  CR 8 45; CR 11 45; CI 96 45; CI 97 45; CS 16; CI 56 46; CI 57 46; CI 59 46; CI 60 46; CI 99 46; CR 12 46; CR 18 46; CR 20 46; CR 21 46; CR 23 46;
  CR 25 46; CR 17 46; CR 9 46; CR 10 46; CI 71 46; CI 72 46; CI 73 46; CI 74 46; CI 75 46; CI 76 46; CI 100 46; CI 77 46; CI 78 46; CR 5 46; CR 6 46;
  CR 7 46; CR 8 46; CR 11 46; CI 89 46; CI 90 46; CI 91 46; CI 92 46; CI 93 46; CI 94 46; CI 95 46; CI 96 46; CI 97 46; CS 17; CI 36 47; CI 53 47;
  CI 56 47; CI 57 47; CI 59 47; CI 60 47; CI 99 47; CR 12 47; CR 18 47; CR 20 47; CR 21 47; CR 23 47; CR 25 47; CR 19 47; CR 13 47; CR 14 47;
  CR 15 47; CR 16 47; CR 17 47; CR 9 47; CR 10 47; CI 71 47; CI 72 47; CI 73 47; CI 74 47; CI 75 47; CI 76 47; CI 100 47; CR 26 47; CI 77 47;
  CI 78 47; CI 84 47; CR 1 47; CR 2 47; CR 3 47; CR 4 47; CR 5 47; CR 6 47; CR 7 47; CR 8 47; CR 11 47; CI 89 47; CI 90 47; CI 91 47; CI 92 47;
  CI 93 47; CI 94 47; CI 95 47; CI 96 47; CI 97 47; CS 18; CI 35 48; CI 36 48; CI 53 48; CI 54 48; CI 56 48; CI 57 48; CI 59 48; CI 60 48; CI 99 48;
  CR 12 48; CR 18 48; CR 20 48; CR 21 48; CR 23 48; CR 25 48; CR 19 48; CR 13 48; CR 14 48; CR 15 48; CR 16 48; CR 17 48; CR 9 48; CR 10 48;
  CI 71 48; CI 72 48; CI 73 48; CI 74 48; CI 75 48; CI 76 48; CI 100 48; CR 26 48; CR 27 48; CI 77 48; CI 78 48; CI 84 48; CR 0 48; CR 1 48; CR 2 48;
  CR 3 48; CR 4 48; CR 5 48; CR 6 48; CR 7 48; CR 8 48; CR 11 48; CI 89 48; CI 90 48; CI 91 48; CI 92 48; CI 93 48; CI 94 48; CI 95 48; CI 96 48;
  CI 97 48; CS 19; CI 34 49; CI 35 49; CI 36 49; CI 53 49; CI 54 49; CI 56 49; CI 57 49; CI 59 49; CI 60 49; CI 99 49; CR 12 49; CR 18 49; CR 20 49;
  CR 21 49; CR 23 49; CR 25 49; CI 68 49; CR 19 49; CR 13 49; CR 14 49; CR 15 49; CR 16 49; CR 17 49; CR 9 49; CR 10 49; CI 71 49; CI 72 49;
  CI 73 49; CI 74 49; CI 75 49; CI 76 49; CI 100 49; CR 26 49; CR 27 49; CI 77 49; CR 28 49; CI 78 49; CI 82 49; CI 84 49; CR 0 49; CR 1 49; CR 2 49;
  CR 3 49; CR 4 49; CR 5 49; CR 6 49; CR 7 49; CR 8 49; CR 11 49; CI 89 49; CI 90 49; CI 91 49; CI 92 49; CI 93 49; CI 94 49; CI 95 49; CI 96 49;
  CI 97 49; CS 20; CI 33 50; CI 34 50; CI 35 50; CI 36 50; CI 50 50; CI 53 50; CI 54 50; CI 56 50; CI 57 50; CI 59 50; CI 60 50; CI 99 50; CR 12 50;
  CR 18 50; CR 20 50; CR 21 50; CR 23 50; CR 25 50; CI 68 50; CR 24 50; CR 22 50; CR 19 50; CR 13 50; CR 14 50; CR 15 50; CR 16 50; CR 17 50;
  CR 9 50; CR 10 50; CI 71 50; CI 72 50; CI 73 50; CI 74 50; CI 75 50; CI 76 50; CI 100 50; CR 26 50; CR 27 50; CI 77 50; CR 28 50; CR 29 50;
  CI 78 50; CI 79 50; CI 81 50; CI 82 50; CI 83 50; CI 84 50; CR 0 50; CR 1 50; CR 2 50; CR 3 50; CR 4 50; CR 5 50; CR 6 50; CR 7 50; CR 8 50;
  CR 11 50; CI 89 50; CI 90 50; CI 91 50; CI 92 50; CI 93 50; CI 94 50; CI 95 50; CI 96 50; CI 97 50; CS 21; CI 32 51; CI 33 51; CI 34 51; CI 35 51;
  CI 36 51; CI 50 51; CI 51 51; CI 53 51; CI 54 51; CI 56 51; CI 57 51; CI 59 51; CI 60 51; CI 99 51; CR 12 51; CR 18 51; CR 20 51; CR 21 51;
  CR 23 51; CR 25 51; CI 68 51; CR 24 51; CR 22 51; CR 19 51; CR 13 51; CR 14 51; CR 15 51; CR 16 51; CR 17 51; CR 9 51; CR 10 51; CI 71 51;
  CI 72 51; CI 73 51; CI 74 51; CI 75 51; CI 76 51; CI 100 51; CR 26 51; CR 27 51; CI 77 51; CR 28 51; CR 29 51; CI 78 51; CR 30 51; CI 79 51;
  CI 80 51; CI 81 51; CI 82 51; CI 83 51; CI 84 51; CR 0 51; CR 1 51; CR 2 51; CR 3 51; CR 4 51; CR 5 51; CR 6 51; CR 7 51; CR 8 51; CR 11 51;
  CI 89 51; CI 90 51; CI 91 51; CI 92 51; CI 93 51; CI 94 51; CI 95 51; CI 96 51; CI 97 51; CS 22; CI 31 52; CI 32 52; CI 33 52; CI 34 52; CI 35 52;
  CI 36 52; CR 31 52; CR 32 52; CI 50 52; CI 51 52; CI 52 52; CI 53 52; CI 54 52; CI 55 52; CI 56 52; CI 57 52; CI 59 52; CI 60 52; CI 99 52;
  CR 12 52; CR 18 52; CR 20 52; CR 21 52; CR 23 52; CR 25 52; CI 68 52; CR 24 52; CR 22 52; CR 19 52; CR 13 52; CR 14 52; CR 15 52; CR 16 52;
  CR 17 52; CR 9 52; CR 10 52; CI 71 52; CI 72 52; CI 73 52; CI 74 52; CI 75 52; CI 76 52; CI 100 52; CR 26 52; CR 27 52; CI 77 52; CR 28 52;
  CR 29 52; CI 78 52; CR 30 52; CR 33 52; CI 79 52; CI 80 52; CI 81 52; CI 82 52; CI 83 52; CI 84 52; CR 0 52; CR 1 52; CI 88 52; CR 2 52; CR 3 52;
  CR 4 52; CR 5 52; CR 6 52; CR 7 52; CR 8 52; CR 11 52; CI 89 52; CI 90 52; CI 91 52; CI 92 52; CI 93 52; CI 94 52; CI 95 52; CI 96 52; CI 97 52;
  CS 23; CI 30 53; CI 31 53; CI 32 53; CI 33 53; CI 34 53; CI 35 53; CI 36 53; CR 31 53; CR 32 53; CI 50 53; CI 51 53; CI 52 53; CI 53 53; CI 54 53;
  CI 55 53; CI 56 53; CI 57 53; CI 59 53; CI 60 53; CI 99 53; CR 12 53; CR 18 53; CR 20 53; CR 21 53; CR 23 53; CR 25 53; CI 68 53; CR 24 53;
  CR 22 53; CR 19 53; CR 13 53; CR 14 53; CR 15 53; CR 16 53; CR 17 53; CR 9 53; CR 10 53; CI 71 53; CI 72 53; CI 73 53; CI 74 53; CI 75 53;
  CI 76 53; CI 100 53; CR 26 53; CR 27 53; CI 77 53; CR 28 53; CR 29 53; CI 78 53; CR 30 53; CR 33 53; CR 34 53; CI 79 53; CI 80 53; CI 81 53;
  CI 82 53; CI 83 53; CI 84 53; CR 0 53; CR 1 53; CI 88 53; CR 2 53; CR 3 53; CR 4 53; CR 5 53; CR 6 53; CR 7 53; CR 8 53; CR 11 53; CI 89 53;
  CI 90 53; CI 91 53; CI 92 53; CI 93 53; CI 94 53; CI 95 53; CI 96 53; CI 97 53; CS 24; CI 29 54; CI 30 54; CI 31 54; CI 32 54; CI 33 54; CI 34 54;
  CI 35 54; CI 36 54; CR 35 54; CR 36 54; CR 31 54; CR 32 54; CI 50 54; CI 51 54; CI 52 54; CI 53 54; CI 54 54; CI 55 54; CI 56 54; CI 57 54;
  CI 59 54; CI 60 54; CI 99 54; CR 12 54; CR 18 54; CR 20 54; CR 21 54; CR 23 54; CR 25 54; CI 68 54; CR 24 54; CR 22 54; CR 19 54; CR 13 54;
  CR 14 54; CR 15 54; CR 16 54; CR 17 54; CR 9 54; CR 10 54; CI 71 54; CI 72 54; CI 73 54; CI 74 54; CI 75 54; CI 76 54; CI 100 54; CR 26 54;
  CR 27 54; CI 77 54; CR 28 54; CR 29 54; CI 78 54; CR 30 54; CR 33 54; CR 34 54; CR 37 54; CI 79 54; CI 80 54; CI 81 54; CI 82 54; CI 83 54;
  CI 84 54; CR 0 54; CR 1 54; CI 88 54; CR 2 54; CR 3 54; CR 4 54; CR 5 54; CR 6 54; CR 7 54; CR 8 54; CR 11 54; CI 89 54; CI 90 54; CI 91 54;
  CI 92 54; CI 93 54; CI 94 54; CI 95 54; CI 96 54; CI 97 54; CS 25; CR 38 55; CR 35 55; CR 36 55; CR 31 55; CR 32 55; CI 50 55; CI 51 55; CI 52 55;
  CI 53 55; CI 54 55; CI 55 55; CI 60 55; CI 61 55; CR 12 55; CR 18 55; CR 20 55; CR 21 55; CI 63 55; CR 23 55; CR 25 55; CR 24 55; CR 22 55;
  CI 70 55; CR 19 55; CR 13 55; CR 14 55; CR 15 55; CR 16 55; CR 17 55; CR 9 55; CR 10 55; CI 75 55; CI 76 55; CR 26 55; CR 27 55; CI 77 55;
  CR 28 55; CR 29 55; CI 78 55; CR 30 55; CR 33 55; CR 34 55; CR 37 55; CR 39 55; CI 79 55; CI 80 55; CI 81 55; CI 83 55; CI 84 55; CR 0 55; CR 1 55;
  CI 88 55; CR 2 55; CR 3 55; CR 4 55; CR 5 55; CR 6 55; CR 7 55; CR 8 55; CR 11 55; CI 89 55; CI 93 55; CI 94 55; CI 96 55; CI 97 55; CS 26;
  CR 40 56; CR 38 56; CI 45 56; CI 46 56; CI 48 56; CR 35 56; CR 36 56; CR 31 56; CR 32 56; CI 50 56; CI 51 56; CI 52 56; CI 53 56; CI 54 56;
  CI 55 56; CI 59 56; CI 61 56; CR 12 56; CR 18 56; CR 20 56; CR 21 56; CI 63 56; CR 23 56; CR 25 56; CI 66 56; CI 67 56; CI 68 56; CI 69 56;
  CR 24 56; CR 22 56; CR 19 56; CR 13 56; CR 14 56; CR 15 56; CR 16 56; CR 17 56; CR 9 56; CR 10 56; CI 74 56; CI 75 56; CI 76 56; CR 26 56;
  CR 27 56; CI 77 56; CR 28 56; CR 29 56; CI 78 56; CR 30 56; CR 33 56; CR 34 56; CR 37 56; CR 39 56; CR 41 56; CI 79 56; CI 80 56; CI 81 56;
  CI 83 56; CI 84 56; CI 85 56; CI 86 56; CI 87 56; CR 0 56; CR 1 56; CR 2 56; CR 3 56; CR 4 56; CR 5 56; CR 6 56; CR 7 56; CR 8 56; CR 11 56;
  CI 89 56; CI 92 56; CI 94 56; CI 96 56; CI 97 56; CS 27; CR 42 57; CR 40 57; CR 38 57; CI 42 57; CI 43 57; CI 47 57; CI 49 57; CI 50 57; CI 51 57;
  CI 53 57; CI 54 57; CI 58 57; CI 61 57; CI 62 57; CI 63 57; CI 101 57; CI 102 57; CI 65 57; CI 103 57; CI 104 57; CI 67 57; CI 68 57; CR 24 57;
  CR 22 57; CI 70 57; CR 19 57; CR 13 57; CR 14 57; CR 15 57; CR 16 57; CR 17 57; CR 9 57; CR 10 57; CI 72 57; CI 73 57; CI 75 57; CI 76 57;
  CR 26 57; CR 27 57; CI 77 57; CR 28 57; CR 29 57; CI 78 57; CR 30 57; CR 33 57; CR 34 57; CR 37 57; CR 39 57; CR 41 57; CR 43 57; CI 79 57;
  CI 80 57; CI 81 57; CI 105 57; CI 82 57; CI 83 57; CI 84 57; CI 85 57; CI 86 57; CI 87 57; CR 0 57; CR 1 57; CI 88 57; CR 2 57; CR 3 57; CR 4 57;
  CR 5 57; CR 6 57; CR 7 57; CR 8 57; CR 11 57; CI 89 57; CI 91 57; CI 92 57; CI 94 57; CI 96 57; CI 97 57; CS 28; CR 44 58; CR 42 58; CR 40 58;
  CR 38 58; CI 106 58; CI 107 58; CI 46 58; CR 35 58; CR 36 58; CR 31 58; CR 32 58; CI 50 58; CI 51 58; CI 52 58; CI 53 58; CI 54 58; CI 55 58;
  CI 57 58; CI 61 58; CR 12 58; CR 18 58; CR 20 58; CR 21 58; CI 63 58; CR 23 58; CR 25 58; CI 101 58; CI 102 58; CI 103 58; CI 67 58; CR 24 58;
  CR 22 58; CR 19 58; CR 13 58; CR 14 58; CR 15 58; CR 16 58; CR 17 58; CR 9 58; CR 10 58; CI 72 58; CI 75 58; CI 76 58; CR 26 58; CR 27 58;
  CI 77 58; CR 28 58; CR 29 58; CI 78 58; CR 30 58; CR 33 58; CR 34 58; CR 37 58; CR 39 58; CR 41 58; CR 43 58; CR 45 58; CI 79 58; CI 80 58;
  CI 81 58; CI 82 58; CI 83 58; CI 84 58; CI 85 58; CR 0 58; CR 1 58; CR 2 58; CR 3 58; CR 4 58; CR 5 58; CR 6 58; CR 7 58; CR 8 58; CR 11 58;
  CI 89 58; CI 90 58; CI 94 58; CI 96 58; CI 97 58; CS 29; CR 46 59; CR 44 59; CR 42 59; CR 40 59; CR 38 59; CI 41 59; CI 106 59; CI 107 59;
  CI 44 59; CI 45 59; CR 35 59; CR 36 59; CR 31 59; CR 32 59; CI 50 59; CI 51 59; CI 52 59; CI 53 59; CI 54 59; CI 55 59; CI 56 59; CI 61 59;
  CR 12 59; CR 18 59; CR 20 59; CR 21 59; CI 63 59; CR 23 59; CR 25 59; CI 64 59; CI 101 59; CI 102 59; CI 65 59; CI 103 59; CI 104 59; CI 66 59;
  CR 24 59; CR 22 59; CR 19 59; CR 13 59; CR 14 59; CR 15 59; CR 16 59; CR 17 59; CR 9 59; CR 10 59; CI 71 59; CI 75 59; CI 76 59; CR 26 59;
  CR 27 59; CI 77 59; CR 28 59; CR 29 59; CI 78 59; CR 30 59; CR 33 59; CR 34 59; CR 37 59; CR 39 59; CR 41 59; CR 43 59; CR 45 59; CR 47 59;
  CI 79 59; CI 80 59; CI 81 59; CI 105 59; CI 83 59; CI 84 59; CI 86 59; CR 0 59; CR 1 59; CR 2 59; CR 3 59; CR 4 59; CR 5 59; CR 6 59; CR 7 59;
  CR 8 59; CR 11 59; CI 89 59; CI 94 59; CI 96 59; CI 97 59; CS 30; CR 48 60; CR 46 60; CR 44 60; CR 42 60; CR 40 60; CR 38 60; CR 35 60; CR 36 60;
  CR 31 60; CR 32 60; CI 50 60; CI 51 60; CI 52 60; CI 53 60; CI 54 60; CI 55 60; CI 60 60; CI 61 60; CR 12 60; CR 18 60; CR 20 60; CR 21 60;
  CI 63 60; CR 23 60; CR 25 60; CR 24 60; CR 22 60; CI 70 60; CR 19 60; CR 13 60; CR 14 60; CR 15 60; CR 16 60; CR 17 60; CR 9 60; CR 10 60;
  CI 75 60; CI 76 60; CR 26 60; CR 27 60; CI 77 60; CR 28 60; CR 29 60; CI 78 60; CR 30 60; CR 33 60; CR 34 60; CR 37 60; CR 39 60; CR 41 60;
  CR 43 60; CR 45 60; CR 47 60; CR 49 60; CI 79 60; CI 80 60; CI 81 60; CI 83 60; CI 84 60; CR 0 60; CR 1 60; CI 88 60; CR 2 60; CR 3 60; CR 4 60;
  CR 5 60; CR 6 60; CR 7 60; CR 8 60; CR 11 60; CI 89 60; CI 93 60; CI 94 60; CI 96 60; CI 97 60; CS 31; CR 50 61; CR 48 61; CR 46 61; CR 44 61;
  CR 42 61; CR 40 61; CR 38 61; CR 35 61; CR 36 61; CR 31 61; CR 32 61; CI 50 61; CI 51 61; CI 52 61; CI 53 61; CI 54 61; CI 55 61; CI 60 61;
  CI 61 61; CR 12 61; CR 18 61; CR 20 61; CR 21 61; CI 63 61; CR 23 61; CR 25 61; CR 24 61; CR 22 61; CI 70 61; CR 19 61; CR 13 61; CR 14 61;
  CR 15 61; CR 16 61; CR 17 61; CR 9 61; CR 10 61; CI 75 61; CI 76 61; CR 26 61; CR 27 61; CI 77 61; CR 28 61; CR 29 61; CI 78 61; CR 30 61;
  CR 33 61; CR 34 61; CR 37 61; CR 39 61; CR 41 61; CR 43 61; CR 45 61; CR 47 61; CR 49 61; CR 51 61; CI 79 61; CI 80 61; CI 81 61; CI 83 61;
  CI 84 61; CR 0 61; CR 1 61; CI 88 61; CR 2 61; CR 3 61; CR 4 61; CR 5 61; CR 6 61; CR 7 61; CR 8 61; CR 11 61; CI 89 61; CI 93 61; CI 94 61;
  CI 96 61; CI 97 61; CS 32; CR 50 62; CR 48 62; CR 46 62; CR 44 62; CR 42 62; CR 40 62; CR 38 62; CI 45 62; CI 46 62; CI 48 62; CR 35 62; CR 36 62;
  CR 31 62; CR 32 62; CI 50 62; CI 51 62; CI 52 62; CI 53 62; CI 54 62; CI 55 62; CI 59 62; CI 61 62; CR 52 62; CR 18 62; CR 20 62; CR 21 62;
  CI 63 62; CR 23 62; CR 25 62; CI 66 62; CI 67 62; CI 68 62; CI 69 62; CR 24 62; CR 22 62; CR 19 62; CR 13 62; CR 14 62; CR 15 62; CR 16 62;
  CR 17 62; CR 9 62; CR 10 62; CI 74 62; CI 75 62; CI 76 62; CR 53 62; CR 27 62; CI 77 62; CR 28 62; CR 29 62; CI 78 62; CR 30 62; CR 33 62;
  CR 34 62; CR 37 62; CR 39 62; CR 41 62; CR 43 62; CR 45 62; CR 47 62; CR 49 62; CR 51 62; CI 79 62; CI 80 62; CI 81 62; CI 83 62; CI 84 62;
  CI 85 62; CI 86 62; CI 87 62; CR 0 62; CR 1 62; CR 2 62; CR 3 62; CR 4 62; CR 5 62; CR 6 62; CR 7 62; CR 8 62; CR 11 62; CI 89 62; CI 92 62;
  CI 94 62; CR 54 62; CI 96 62; CI 97 62; CS 33; CR 55 63; CR 50 63; CR 48 63; CR 46 63; CR 44 63; CR 42 63; CR 40 63; CR 38 63; CR 35 63; CR 36 63;
  CR 31 63; CR 32 63; CI 50 63; CI 51 63; CI 52 63; CI 53 63; CI 54 63; CI 55 63; CI 60 63; CI 61 63; CR 52 63; CR 56 63; CR 20 63; CR 21 63;
  CI 63 63; CR 23 63; CR 25 63; CR 24 63; CR 22 63; CI 70 63; CR 19 63; CR 13 63; CR 14 63; CR 15 63; CR 16 63; CR 17 63; CR 9 63; CR 10 63;
  CI 75 63; CI 76 63; CR 53 63; CR 57 63; CI 77 63; CR 28 63; CR 29 63; CI 78 63; CR 30 63; CR 33 63; CR 34 63; CR 37 63; CR 39 63; CR 41 63;
  CR 43 63; CR 45 63; CR 47 63; CR 49 63; CR 51 63; CI 79 63; CI 80 63; CI 81 63; CI 83 63; CI 84 63; CR 0 63; CR 1 63; CI 88 63; CR 2 63; CR 3 63;
  CR 4 63; CR 5 63; CR 6 63; CR 7 63; CR 8 63; CR 11 63; CI 89 63; CI 93 63; CI 94 63; CR 54 63; CR 58 63; CI 96 63; CI 97 63; CS 34; CR 46 64;
  CR 44 64; CR 42 64; CR 40 64; CR 38 64; CI 42 64; CI 43 64; CI 47 64; CI 49 64; CI 50 64; CI 51 64; CI 53 64; CI 54 64; CI 58 64; CI 61 64;
  CI 62 64; CI 63 64; CI 101 64; CI 102 64; CI 65 64; CI 103 64; CI 104 64; CI 67 64; CI 68 64; CR 24 64; CR 22 64; CI 70 64; CR 19 64; CR 13 64;
  CR 14 64; CR 15 64; CR 16 64; CR 17 64; CR 9 64; CR 10 64; CI 72 64; CI 73 64; CI 75 64; CI 76 64; CR 53 64; CR 57 64; CI 77 64; CR 59 64;
  CR 29 64; CI 78 64; CR 30 64; CR 33 64; CR 34 64; CR 37 64; CR 39 64; CR 41 64; CR 43 64; CR 45 64; CR 47 64; CR 49 64; CR 51 64; CI 79 64;
  CI 80 64; CI 81 64; CI 105 64; CI 82 64; CI 83 64; CI 84 64; CI 85 64; CI 86 64; CI 87 64; CR 0 64; CR 1 64; CI 88 64; CR 2 64; CR 3 64; CR 4 64;
  CR 5 64; CR 6 64; CR 7 64; CR 8 64; CR 11 64; CI 89 64; CI 91 64; CI 92 64; CI 94 64; CR 54 64; CR 58 64; CI 96 64; CR 60 64; CI 97 64; CS 35;
  CI 18 65; CR 55 65; CR 50 65; CR 48 65; CR 46 65; CR 44 65; CR 42 65; CR 40 65; CR 38 65; CR 35 65; CR 36 65; CR 31 65; CR 32 65; CI 50 65;
  CI 51 65; CI 52 65; CI 53 65; CI 54 65; CI 55 65; CI 60 65; CI 61 65; CR 52 65; CR 56 65; CR 61 65; CR 62 65; CI 63 65; CR 23 65; CR 25 65;
  CR 24 65; CR 22 65; CI 70 65; CR 19 65; CR 13 65; CR 14 65; CR 15 65; CR 16 65; CR 17 65; CR 9 65; CR 10 65; CI 75 65; CI 76 65; CR 53 65;
  CR 57 65; CI 77 65; CR 59 65; CR 63 65; CI 78 65; CR 30 65; CR 33 65; CR 34 65; CR 37 65; CR 39 65; CR 41 65; CR 43 65; CR 45 65; CR 47 65;
  CR 49 65; CR 51 65; CI 79 65; CI 80 65; CI 81 65; CI 83 65; CI 84 65; CR 0 65; CR 1 65; CI 88 65; CR 2 65; CR 3 65; CR 4 65; CR 5 65; CR 6 65;
  CR 7 65; CR 8 65; CR 11 65; CI 89 65; CI 93 65; CI 94 65; CR 54 65; CR 58 65; CI 96 65; CR 60 65; CR 64 65; CI 97 65; CN 10 169; CN 11 166;
  CN 12 163; CN 13 151; CN 14 148; CN 15 142; CN 16 154; CN 17 172; CN 18 175; CN 19 149; CN 20 164; CN 21 167; CN 22 147; CN 23 146; CN 24 145;
  CN 25 144; CN 26 143; CN 27 168; CN 28 150; CN 29 165; CN 30 152; CN 31 153; CN 32 155; CN 33 156; CN 34 157; CN 35 158; CN 36 159; CN 37 160;
  CN 38 161; CN 39 162; CN 45 96; CN 51 132; CN 52 133; CN 53 134; CN 54 135; CN 55 136; CN 56 137; CN 57 138; CN 58 139; CN 59 140; CN 60 141;
  CN 61 170; CN 62 171; CN 63 173; CN 64 174; CN 65 176; CE 11 174 64; CE 11 176 65; CE 12 171 62; CE 12 173 63; CE 12 174 64; CE 12 176 65;
  CE 13 156 33; CE 13 157 34; CE 13 158 35; CE 13 159 36; CE 13 160 37; CE 13 161 38; CE 13 162 39; CE 13 170 61; CE 13 171 62; CE 13 173 63;
  CE 13 174 64; CE 13 176 65; CE 14 153 31; CE 14 155 32; CE 14 156 33; CE 14 157 34; CE 14 158 35; CE 14 159 36; CE 14 160 37; CE 14 161 38;
  CE 14 162 39; CE 14 170 61; CE 14 171 62; CE 14 173 63; CE 14 174 64; CE 14 176 65; CE 15 144 25; CE 15 147 22; CE 15 156 33; CE 15 157 34;
  CE 15 158 35; CE 15 159 36; CE 15 160 37; CE 15 161 38; CE 15 162 39; CE 15 170 61; CE 15 171 62; CE 15 173 63; CE 15 174 64; CE 15 176 65;
  CE 16 158 35; CE 16 159 36; CE 16 160 37; CE 16 161 38; CE 16 162 39; CE 16 170 61; CE 16 171 62; CE 16 173 63; CE 16 174 64; CE 16 176 65;
  CE 19 152 30; CE 19 153 31; CE 19 155 32; CE 19 156 33; CE 19 157 34; CE 19 158 35; CE 19 159 36; CE 19 160 37; CE 19 161 38; CE 19 162 39;
  CE 19 170 61; CE 19 171 62; CE 19 173 63; CE 19 174 64; CE 19 176 65; CE 20 170 61; CE 20 171 62; CE 20 173 63; CE 20 174 64; CE 20 176 65;
  CE 21 173 63; CE 21 174 64; CE 21 176 65; CE 22 162 39; CE 22 170 61; CE 22 171 62; CE 22 173 63; CE 22 174 64; CE 22 176 65; CE 23 161 38;
  CE 23 162 39; CE 23 170 61; CE 23 171 62; CE 23 173 63; CE 23 174 64; CE 23 176 65; CE 24 160 37; CE 24 161 38; CE 24 162 39; CE 24 170 61;
  CE 24 171 62; CE 24 173 63; CE 24 174 64; CE 24 176 65; CE 25 156 33; CE 25 157 34; CE 25 158 35; CE 25 159 36; CE 25 160 37; CE 25 161 38;
  CE 25 162 39; CE 25 170 61; CE 25 171 62; CE 25 173 63; CE 25 174 64; CE 25 176 65; CE 26 155 32; CE 26 156 33; CE 26 157 34; CE 26 158 35;
  CE 26 159 36; CE 26 160 37; CE 26 161 38; CE 26 162 39; CE 26 170 61; CE 26 171 62; CE 26 173 63; CE 26 174 64; CE 26 176 65; CE 28 157 34;
  CE 28 158 35; CE 28 159 36; CE 28 160 37; CE 28 161 38; CE 28 162 39; CE 28 170 61; CE 28 171 62; CE 28 173 63; CE 28 174 64; CE 28 176 65;
  CE 30 153 31; CE 30 155 32; CE 30 156 33; CE 30 157 34; CE 30 158 35; CE 30 159 36; CE 30 160 37; CE 30 161 38; CE 30 162 39; CE 30 170 61;
  CE 30 171 62; CE 30 173 63; CE 30 174 64; CE 30 176 65; CE 31 155 32; CE 31 156 33; CE 31 157 34; CE 31 158 35; CE 31 159 36; CE 31 160 37;
  CE 31 161 38; CE 31 162 39; CE 31 170 61; CE 31 171 62; CE 31 173 63; CE 31 174 64; CE 31 176 65; CE 32 156 33; CE 32 157 34; CE 32 158 35;
  CE 32 159 36; CE 32 160 37; CE 32 161 38; CE 32 162 39; CE 32 170 61; CE 32 171 62; CE 32 173 63; CE 32 174 64; CE 32 176 65; CE 33 157 34;
  CE 33 158 35; CE 33 159 36; CE 33 160 37; CE 33 161 38; CE 33 162 39; CE 33 170 61; CE 33 171 62; CE 33 173 63; CE 33 174 64; CE 33 176 65;
  CE 34 158 35; CE 34 159 36; CE 34 160 37; CE 34 161 38; CE 34 162 39; CE 34 170 61; CE 34 171 62; CE 34 173 63; CE 34 174 64; CE 34 176 65;
  CE 35 159 36; CE 35 160 37; CE 35 161 38; CE 35 162 39; CE 35 170 61; CE 35 171 62; CE 35 173 63; CE 35 174 64; CE 35 176 65; CE 36 160 37;
  CE 36 161 38; CE 36 162 39; CE 36 170 61; CE 36 171 62; CE 36 173 63; CE 36 174 64; CE 36 176 65; CE 37 161 38; CE 37 162 39; CE 37 170 61;
  CE 37 171 62; CE 37 173 63; CE 37 174 64; CE 37 176 65; CE 38 162 39; CE 38 170 61; CE 38 171 62; CE 38 173 63; CE 38 174 64; CE 38 176 65;
  CE 39 170 61; CE 39 171 62; CE 39 173 63; CE 39 174 64; CE 39 176 65; CE 45 170 61; CE 45 171 62; CE 45 173 63; CE 45 174 64; CE 45 176 65;
  CE 45 132 51; CE 45 133 52; CE 45 134 53; CE 45 135 54; CE 45 136 55; CE 45 137 56; CE 45 138 57; CE 45 139 58; CE 45 140 59; CE 45 141 60;
  CE 45 170 61; CE 45 171 62; CE 45 173 63; CE 45 174 64; CE 45 176 65; CE 51 133 52; CE 51 134 53; CE 51 135 54; CE 51 136 55; CE 51 137 56;
  CE 51 138 57; CE 51 139 58; CE 51 140 59; CE 51 141 60; CE 51 170 61; CE 51 171 62; CE 51 173 63; CE 51 174 64; CE 51 176 65; CE 52 134 53;
  CE 52 135 54; CE 52 136 55; CE 52 137 56; CE 52 138 57; CE 52 139 58; CE 52 140 59; CE 52 141 60; CE 52 170 61; CE 52 171 62; CE 52 173 63;
  CE 52 174 64; CE 52 176 65; CE 53 135 54; CE 53 136 55; CE 53 137 56; CE 53 138 57; CE 53 139 58; CE 53 140 59; CE 53 141 60; CE 53 170 61;
  CE 53 171 62; CE 53 173 63; CE 53 174 64; CE 53 176 65; CE 54 136 55; CE 54 137 56; CE 54 138 57; CE 54 139 58; CE 54 140 59; CE 54 141 60;
  CE 54 170 61; CE 54 171 62; CE 54 173 63; CE 54 174 64; CE 54 176 65; CE 55 137 56; CE 55 138 57; CE 55 139 58; CE 55 140 59; CE 55 141 60;
  CE 55 170 61; CE 55 171 62; CE 55 173 63; CE 55 174 64; CE 55 176 65; CE 56 138 57; CE 56 139 58; CE 56 140 59; CE 56 141 60; CE 56 170 61;
  CE 56 171 62; CE 56 173 63; CE 56 174 64; CE 56 176 65; CE 57 139 58; CE 57 140 59; CE 57 141 60; CE 57 170 61; CE 57 171 62; CE 57 173 63;
  CE 57 174 64; CE 57 176 65; CE 58 140 59; CE 58 141 60; CE 58 170 61; CE 58 171 62; CE 58 173 63; CE 58 174 64; CE 58 176 65; CE 59 141 60;
  CE 59 170 61; CE 59 171 62; CE 59 173 63; CE 59 174 64; CE 59 176 65; CE 60 170 61; CE 60 171 62; CE 60 173 63; CE 60 174 64; CE 60 176 65;
  CE 61 171 62; CE 61 173 63; CE 61 174 64; CE 61 176 65; CE 62 173 63; CE 62 174 64; CE 62 176 65; CE 63 174 64; CE 63 176 65; CE 64 176 65].
(** computeBasis, src/relative_pose/modules/fivept_kneip/code.cpp 36-8910 *)
Definition kn_code : list kinstr :=
  [CS 0] ++ kn_cubic 30 ++ kn_rest30 ++
  [CS 1] ++ kn_cubic 31 ++ kn_rest31 ++
  [CS 2] ++ kn_cubic 32 ++ kn_rest32 ++
  [CS 3] ++ kn_cubic 33 ++ kn_rest33 ++
  [CS 4] ++ kn_cubic 34 ++ kn_rest34 ++
  [CS 5] ++ kn_cubic 35 ++ kn_rest35 ++
  [CS 6] ++ kn_cubic 36 ++ kn_rest36 ++
  [CS 7] ++ kn_cubic 37 ++ kn_rest37 ++
  [CS 8] ++ kn_cubic 38 ++ kn_rest38 ++
  [CS 9] ++ kn_cubic39 ++ kn_rest39 ++
  kn_tail.
Local Open Scope R_scope.
(** initEpncpRowR, src/relative_pose/modules/fivept_kneip/init.cpp 34-156: p0 p1 p2 are c123_1, q0 q1 q2 are c123_2 *)
Definition kn_row (p0 p1 p2 q0 q1 q2 : mat3) : list (nat * R) :=
  [ (0%nat, - m00 p1 * m12 q2 + m00 p1 * m21 q2 + m01 p0 * m12 q2 - m01 p0 * m22 q1 - m10 p0 * m21 q2 + m10 p0 * m22 q1);
    (1%nat, - m00 p1 * m12 q1 + m00 p1 * m21 q1 + m01 p0 * m11 q2 - m01 p0 * m21 q1 - m10 p0 * m11 q2 + m10 p0 * m12 q1);
    (2%nat, - m00 p1 * m02 q2 + m00 p1 * m20 q2 + m01 p0 * m02 q2 - m01 p0 * m22 q0 - m10 p0 * m20 q2 + m10 p0 * m22 q0);
    (3%nat, - m00 p1 * m02 q1 - m00 p1 * m12 q0 + m00 p1 * m20 q1 + m00 p1 * m21 q0 + m01 p0 * m01 q2 + m01 p0 * m10 q2 - m01 p0 * m20 q1 - m01 p0 * m21 q0 - m10 p0 * m01 q2 + m10 p0 * m02 q1 - m10 p0 * m10 q2 + m10 p0 * m12 q0);
    (4%nat, - m00 p1 * m02 q0 + m00 p1 * m20 q0 + m01 p0 * m00 q2 - m01 p0 * m20 q0 - m10 p0 * m00 q2 + m10 p0 * m02 q0);
    (5%nat, m00 p2 * m12 q2 - m00 p2 * m21 q2 - m02 p0 * m12 q2 + m02 p0 * m22 q1 + m20 p0 * m21 q2 - m20 p0 * m22 q1);
    (6%nat, m00 p2 * m02 q2 - m00 p2 * m20 q2 - m02 p0 * m02 q2 + m02 p0 * m22 q0 + m20 p0 * m20 q2 - m20 p0 * m22 q0);
    (7%nat, m00 p1 * m12 q2 - m00 p1 * m21 q2 - m01 p0 * m12 q2 + m01 p0 * m22 q1 + m10 p0 * m21 q2 - m10 p0 * m22 q1);
    (8%nat, m00 p1 * m12 q1 - m00 p1 * m21 q1 - m01 p0 * m11 q2 + m01 p0 * m21 q1 + m10 p0 * m11 q2 - m10 p0 * m12 q1);
    (10%nat, - m00 p1 * m01 q2 + m00 p1 * m10 q2 + m00 p1 * m12 q0 - m00 p1 * m21 q0 + m01 p0 * m02 q1 - m01 p0 * m10 q2 - m01 p0 * m12 q0 + m01 p0 * m20 q1 + m10 p0 * m01 q2 - m10 p0 * m02 q1 - m10 p0 * m20 q1 + m10 p0 * m21 q0);
    (11%nat, - m00 p1 * m01 q1 + m00 p1 * m10 q1 + m01 p0 * m01 q1 - m01 p0 * m11 q0 - m10 p0 * m10 q1 + m10 p0 * m11 q0);
    (12%nat, - m00 p1 * m01 q0 + m00 p1 * m10 q0 + m01 p0 * m00 q1 - m01 p0 * m10 q0 - m10 p0 * m00 q1 + m10 p0 * m01 q0);
    (13%nat, - m00 p2 * m12 q2 + m00 p2 * m21 q2 + m02 p0 * m12 q2 - m02 p0 * m22 q1 - m20 p0 * m21 q2 + m20 p0 * m22 q1);
    (14%nat, m00 p2 * m12 q1 - m00 p2 * m21 q1 - m02 p0 * m11 q2 + m02 p0 * m21 q1 + m20 p0 * m11 q2 - m20 p0 * m12 q1);
    (15%nat, m00 p2 * m01 q2 + m00 p2 * m02 q1 - m00 p2 * m10 q2 - m00 p2 * m20 q1 - m02 p0 * m01 q2 - m02 p0 * m02 q1 + m02 p0 * m12 q0 + m02 p0 * m21 q0 + m20 p0 * m10 q2 - m20 p0 * m12 q0 + m20 p0 * m20 q1 - m20 p0 * m21 q0);
    (16%nat, - m00 p2 * m12 q1 + m00 p2 * m21 q1 + m02 p0 * m11 q2 - m02 p0 * m21 q1 - m20 p0 * m11 q2 + m20 p0 * m12 q1);
    (18%nat, m00 p2 * m01 q1 - m00 p2 * m10 q1 - m02 p0 * m01 q1 + m02 p0 * m11 q0 + m20 p0 * m10 q1 - m20 p0 * m11 q0);
    (19%nat, m00 p1 * m02 q2 - m00 p1 * m20 q2 - m01 p0 * m02 q2 + m01 p0 * m22 q0 + m10 p0 * m20 q2 - m10 p0 * m22 q0);
    (20%nat, m00 p1 * m01 q2 + m00 p1 * m02 q1 - m00 p1 * m10 q2 - m00 p1 * m20 q1 - m01 p0 * m01 q2 - m01 p0 * m02 q1 + m01 p0 * m12 q0 + m01 p0 * m21 q0 + m10 p0 * m10 q2 - m10 p0 * m12 q0 + m10 p0 * m20 q1 - m10 p0 * m21 q0);
    (21%nat, m00 p1 * m01 q1 - m00 p1 * m10 q1 - m01 p0 * m01 q1 + m01 p0 * m11 q0 + m10 p0 * m10 q1 - m10 p0 * m11 q0);
    (22%nat, m00 p1 * m02 q0 - m00 p1 * m20 q0 - m01 p0 * m00 q2 + m01 p0 * m20 q0 + m10 p0 * m00 q2 - m10 p0 * m02 q0);
    (23%nat, m00 p1 * m01 q0 - m00 p1 * m10 q0 - m01 p0 * m00 q1 + m01 p0 * m10 q0 + m10 p0 * m00 q1 - m10 p0 * m01 q0);
    (25%nat, - m00 p2 * m02 q2 + m00 p2 * m20 q2 + m02 p0 * m02 q2 - m02 p0 * m22 q0 - m20 p0 * m20 q2 + m20 p0 * m22 q0);
    (26%nat, - m00 p2 * m01 q2 + m00 p2 * m10 q2 + m00 p2 * m12 q0 - m00 p2 * m21 q0 + m02 p0 * m02 q1 - m02 p0 * m10 q2 - m02 p0 * m12 q0 + m02 p0 * m20 q1 + m20 p0 * m01 q2 - m20 p0 * m02 q1 - m20 p0 * m20 q1 + m20 p0 * m21 q0);
    (27%nat, m00 p2 * m02 q0 - m00 p2 * m20 q0 - m02 p0 * m00 q2 + m02 p0 * m20 q0 + m20 p0 * m00 q2 - m20 p0 * m02 q0);
    (28%nat, - m00 p2 * m02 q1 - m00 p2 * m12 q0 + m00 p2 * m20 q1 + m00 p2 * m21 q0 + m02 p0 * m01 q2 + m02 p0 * m10 q2 - m02 p0 * m20 q1 - m02 p0 * m21 q0 - m20 p0 * m01 q2 + m20 p0 * m02 q1 - m20 p0 * m10 q2 + m20 p0 * m12 q0);
    (29%nat, - m00 p2 * m01 q1 + m00 p2 * m10 q1 + m02 p0 * m01 q1 - m02 p0 * m11 q0 - m20 p0 * m10 q1 + m20 p0 * m11 q0);
    (30%nat, m00 p2 * m01 q0 - m00 p2 * m10 q0 - m02 p0 * m00 q1 + m02 p0 * m10 q0 + m20 p0 * m00 q1 - m20 p0 * m01 q0);
    (33%nat, - m00 p2 * m02 q0 + m00 p2 * m20 q0 + m02 p0 * m00 q2 - m02 p0 * m20 q0 - m20 p0 * m00 q2 + m20 p0 * m02 q0);
    (34%nat, - m00 p2 * m01 q0 + m00 p2 * m10 q0 + m02 p0 * m00 q1 - m02 p0 * m10 q0 - m20 p0 * m00 q1 + m20 p0 * m01 q0);
    (39%nat, - m01 p1 * m21 q2 + m01 p1 * m22 q1 + m10 p1 * m12 q2 - m10 p1 * m22 q1 - m11 p0 * m12 q2 + m11 p0 * m21 q2);
    (40%nat, - m01 p1 * m11 q2 + m01 p1 * m12 q1 + m10 p1 * m11 q2 - m10 p1 * m21 q1 - m11 p0 * m12 q1 + m11 p0 * m21 q1);
    (41%nat, - m01 p1 * m20 q2 + m01 p1 * m22 q0 + m10 p1 * m02 q2 - m10 p1 * m22 q0 - m11 p0 * m02 q2 + m11 p0 * m20 q2);
    (42%nat, - m01 p1 * m01 q2 + m01 p1 * m02 q1 - m01 p1 * m10 q2 + m01 p1 * m12 q0 + m10 p1 * m01 q2 + m10 p1 * m10 q2 - m10 p1 * m20 q1 - m10 p1 * m21 q0 - m11 p0 * m02 q1 - m11 p0 * m12 q0 + m11 p0 * m20 q1 + m11 p0 * m21 q0);
    (43%nat, - m01 p1 * m00 q2 + m01 p1 * m02 q0 + m10 p1 * m00 q2 - m10 p1 * m20 q0 - m11 p0 * m02 q0 + m11 p0 * m20 q0);
    (44%nat, - m01 p2 * m12 q2 + m01 p2 * m21 q2 + m02 p1 * m12 q2 - m02 p1 * m22 q1 - m10 p2 * m12 q2 + m10 p2 * m21 q2 + m12 p0 * m12 q2 - m12 p0 * m22 q1 - m20 p1 * m21 q2 + m20 p1 * m22 q1 - m21 p0 * m21 q2 + m21 p0 * m22 q1);
    (45%nat, - m01 p2 * m02 q2 + m01 p2 * m20 q2 + m02 p1 * m02 q2 - m02 p1 * m22 q0 - m10 p2 * m02 q2 + m10 p2 * m20 q2 + m12 p0 * m02 q2 - m12 p0 * m22 q0 - m20 p1 * m20 q2 + m20 p1 * m22 q0 - m21 p0 * m20 q2 + m21 p0 * m22 q0);
    (46%nat, m01 p2 * m12 q2 - m01 p2 * m22 q1 - m02 p1 * m12 q2 + m02 p1 * m21 q2 - m10 p2 * m21 q2 + m10 p2 * m22 q1 - m12 p0 * m21 q2 + m12 p0 * m22 q1 - m20 p1 * m12 q2 + m20 p1 * m21 q2 + m21 p0 * m12 q2 - m21 p0 * m22 q1);
    (47%nat, m01 p2 * m11 q2 - m01 p2 * m12 q1 + m02 p1 * m11 q2 - m02 p1 * m12 q1 - m10 p2 * m11 q2 + m10 p2 * m21 q1 + m12 p0 * m12 q1 - m12 p0 * m21 q1 - m20 p1 * m11 q2 + m20 p1 * m21 q1 + m21 p0 * m12 q1 - m21 p0 * m21 q1);
    (48%nat, - m01 p2 * m02 q1 + m01 p2 * m10 q2 + m02 p1 * m01 q2 - m02 p1 * m12 q0 - m10 p2 * m01 q2 + m10 p2 * m20 q1 + m12 p0 * m02 q1 - m12 p0 * m21 q0 - m20 p1 * m10 q2 + m20 p1 * m21 q0 + m21 p0 * m12 q0 - m21 p0 * m20 q1);
    (49%nat, - m02 p2 * m21 q2 + m02 p2 * m22 q1 + m20 p2 * m12 q2 - m20 p2 * m22 q1 - m22 p0 * m12 q2 + m22 p0 * m21 q2);
    (50%nat, - m02 p2 * m11 q2 + m02 p2 * m12 q1 + m20 p2 * m11 q2 - m20 p2 * m21 q1 - m22 p0 * m12 q1 + m22 p0 * m21 q1);
    (51%nat, m01 p2 * m02 q2 - m01 p2 * m22 q0 - m02 p1 * m02 q2 + m02 p1 * m20 q2 - m10 p2 * m20 q2 + m10 p2 * m22 q0 - m12 p0 * m20 q2 + m12 p0 * m22 q0 - m20 p1 * m02 q2 + m20 p1 * m20 q2 + m21 p0 * m02 q2 - m21 p0 * m22 q0);
    (52%nat, m01 p2 * m01 q2 - m01 p2 * m12 q0 - m02 p1 * m02 q1 + m02 p1 * m10 q2 - m10 p2 * m10 q2 + m10 p2 * m21 q0 + m12 p0 * m12 q0 - m12 p0 * m20 q1 - m20 p1 * m01 q2 + m20 p1 * m20 q1 + m21 p0 * m02 q1 - m21 p0 * m21 q0);
    (53%nat, m01 p2 * m00 q2 - m01 p2 * m02 q0 + m02 p1 * m00 q2 - m02 p1 * m02 q0 - m10 p2 * m00 q2 + m10 p2 * m20 q0 + m12 p0 * m02 q0 - m12 p0 * m20 q0 - m20 p1 * m00 q2 + m20 p1 * m20 q0 + m21 p0 * m02 q0 - m21 p0 * m20 q0);
    (54%nat, - m02 p2 * m20 q2 + m02 p2 * m22 q0 + m20 p2 * m02 q2 - m20 p2 * m22 q0 - m22 p0 * m02 q2 + m22 p0 * m20 q2);
    (55%nat, - m02 p2 * m01 q2 + m02 p2 * m02 q1 - m02 p2 * m10 q2 + m02 p2 * m12 q0 + m20 p2 * m01 q2 + m20 p2 * m10 q2 - m20 p2 * m20 q1 - m20 p2 * m21 q0 - m22 p0 * m02 q1 - m22 p0 * m12 q0 + m22 p0 * m20 q1 + m22 p0 * m21 q0);
    (56%nat, - m02 p2 * m00 q2 + m02 p2 * m02 q0 + m20 p2 * m00 q2 - m20 p2 * m20 q0 - m22 p0 * m02 q0 + m22 p0 * m20 q0);
    (57%nat, m11 p2 * m12 q2 - m11 p2 * m21 q2 - m12 p1 * m12 q2 + m12 p1 * m22 q1 + m21 p1 * m21 q2 - m21 p1 * m22 q1);
    (58%nat, m11 p2 * m02 q2 - m11 p2 * m20 q2 - m12 p1 * m02 q2 + m12 p1 * m22 q0 + m21 p1 * m20 q2 - m21 p1 * m22 q0);
    (59%nat, m12 p2 * m21 q2 - m12 p2 * m22 q1 - m21 p2 * m12 q2 + m21 p2 * m22 q1 + m22 p1 * m12 q2 - m22 p1 * m21 q2);
    (60%nat, m12 p2 * m20 q2 - m12 p2 * m22 q0 - m21 p2 * m02 q2 + m21 p2 * m22 q0 + m22 p1 * m02 q2 - m22 p1 * m20 q2);
    (61%nat, m01 p1 * m21 q2 - m01 p1 * m22 q1 - m10 p1 * m12 q2 + m10 p1 * m22 q1 + m11 p0 * m12 q2 - m11 p0 * m21 q2);
    (62%nat, m01 p1 * m11 q2 - m01 p1 * m12 q1 - m10 p1 * m11 q2 + m10 p1 * m21 q1 + m11 p0 * m12 q1 - m11 p0 * m21 q1);
    (64%nat, m01 p1 * m01 q2 - m01 p1 * m02 q1 - m01 p1 * m20 q1 + m01 p1 * m21 q0 + m10 p1 * m02 q1 - m10 p1 * m10 q2 - m10 p1 * m12 q0 + m10 p1 * m20 q1 - m11 p0 * m01 q2 + m11 p0 * m10 q2 + m11 p0 * m12 q0 - m11 p0 * m21 q0);
    (65%nat, - m01 p1 * m10 q1 + m01 p1 * m11 q0 + m10 p1 * m01 q1 - m10 p1 * m11 q0 - m11 p0 * m01 q1 + m11 p0 * m10 q1);
    (66%nat, - m01 p1 * m00 q1 + m01 p1 * m01 q0 + m10 p1 * m00 q1 - m10 p1 * m10 q0 - m11 p0 * m01 q0 + m11 p0 * m10 q0);
    (67%nat, - m01 p2 * m21 q2 + m01 p2 * m22 q1 - m02 p1 * m21 q2 + m02 p1 * m22 q1 + m10 p2 * m12 q2 - m10 p2 * m22 q1 - m12 p0 * m12 q2 + m12 p0 * m21 q2 + m20 p1 * m12 q2 - m20 p1 * m22 q1 - m21 p0 * m12 q2 + m21 p0 * m21 q2);
    (68%nat, - m01 p2 * m11 q2 + m01 p2 * m21 q1 + m02 p1 * m12 q1 - m02 p1 * m21 q1 + m10 p2 * m11 q2 - m10 p2 * m12 q1 + m12 p0 * m11 q2 - m12 p0 * m12 q1 + m20 p1 * m12 q1 - m20 p1 * m21 q1 - m21 p0 * m11 q2 + m21 p0 * m21 q1);
    (69%nat, - m01 p2 * m01 q2 + m01 p2 * m20 q1 + m02 p1 * m02 q1 - m02 p1 * m21 q0 - m10 p2 * m02 q1 + m10 p2 * m10 q2 + m12 p0 * m01 q2 - m12 p0 * m12 q0 + m20 p1 * m12 q0 - m20 p1 * m20 q1 - m21 p0 * m10 q2 + m21 p0 * m21 q0);
    (70%nat, m02 p2 * m21 q2 - m02 p2 * m22 q1 - m20 p2 * m12 q2 + m20 p2 * m22 q1 + m22 p0 * m12 q2 - m22 p0 * m21 q2);
    (71%nat, m01 p2 * m12 q1 - m01 p2 * m21 q1 - m02 p1 * m11 q2 + m02 p1 * m21 q1 + m10 p2 * m12 q1 - m10 p2 * m21 q1 - m12 p0 * m11 q2 + m12 p0 * m21 q1 + m20 p1 * m11 q2 - m20 p1 * m12 q1 + m21 p0 * m11 q2 - m21 p0 * m12 q1);
    (73%nat, - m01 p2 * m01 q1 + m01 p2 * m10 q1 + m02 p1 * m01 q1 - m02 p1 * m11 q0 - m10 p2 * m01 q1 + m10 p2 * m10 q1 + m12 p0 * m01 q1 - m12 p0 * m11 q0 - m20 p1 * m10 q1 + m20 p1 * m11 q0 - m21 p0 * m10 q1 + m21 p0 * m11 q0);
    (74%nat, m02 p2 * m11 q2 - m02 p2 * m12 q1 - m20 p2 * m11 q2 + m20 p2 * m21 q1 + m22 p0 * m12 q1 - m22 p0 * m21 q1);
    (76%nat, m01 p2 * m02 q1 - m01 p2 * m21 q0 - m02 p1 * m01 q2 + m02 p1 * m20 q1 + m10 p2 * m12 q0 - m10 p2 * m20 q1 - m12 p0 * m10 q2 + m12 p0 * m21 q0 - m20 p1 * m02 q1 + m20 p1 * m10 q2 + m21 p0 * m01 q2 - m21 p0 * m12 q0);
    (77%nat, m01 p2 * m01 q1 - m01 p2 * m11 q0 - m02 p1 * m01 q1 + m02 p1 * m10 q1 - m10 p2 * m10 q1 + m10 p2 * m11 q0 - m12 p0 * m10 q1 + m12 p0 * m11 q0 - m20 p1 * m01 q1 + m20 p1 * m10 q1 + m21 p0 * m01 q1 - m21 p0 * m11 q0);
    (78%nat, m01 p2 * m00 q1 - m01 p2 * m01 q0 + m02 p1 * m00 q1 - m02 p1 * m01 q0 - m10 p2 * m00 q1 + m10 p2 * m10 q0 + m12 p0 * m01 q0 - m12 p0 * m10 q0 - m20 p1 * m00 q1 + m20 p1 * m10 q0 + m21 p0 * m01 q0 - m21 p0 * m10 q0);
    (79%nat, m02 p2 * m01 q2 - m02 p2 * m02 q1 - m02 p2 * m20 q1 + m02 p2 * m21 q0 + m20 p2 * m02 q1 - m20 p2 * m10 q2 - m20 p2 * m12 q0 + m20 p2 * m20 q1 - m22 p0 * m01 q2 + m22 p0 * m10 q2 + m22 p0 * m12 q0 - m22 p0 * m21 q0);
    (80%nat, - m02 p2 * m10 q1 + m02 p2 * m11 q0 + m20 p2 * m01 q1 - m20 p2 * m11 q0 - m22 p0 * m01 q1 + m22 p0 * m10 q1);
    (81%nat, m02 p2 * m01 q0 - m02 p2 * m00 q1 + m20 p2 * m00 q1 - m20 p2 * m10 q0 - m22 p0 * m01 q0 + m22 p0 * m10 q0);
    (82%nat, - m11 p2 * m12 q2 + m11 p2 * m21 q2 + m12 p1 * m12 q2 - m12 p1 * m22 q1 - m21 p1 * m21 q2 + m21 p1 * m22 q1);
    (83%nat, m11 p2 * m12 q1 - m11 p2 * m21 q1 - m12 p1 * m11 q2 + m12 p1 * m21 q1 + m21 p1 * m11 q2 - m21 p1 * m12 q1);
    (84%nat, m11 p2 * m01 q2 + m11 p2 * m02 q1 - m11 p2 * m10 q2 - m11 p2 * m20 q1 - m12 p1 * m01 q2 - m12 p1 * m02 q1 + m12 p1 * m12 q0 + m12 p1 * m21 q0 + m21 p1 * m10 q2 - m21 p1 * m12 q0 + m21 p1 * m20 q1 - m21 p1 * m21 q0);
    (85%nat, - m12 p2 * m21 q2 + m12 p2 * m22 q1 + m21 p2 * m12 q2 - m21 p2 * m22 q1 - m22 p1 * m12 q2 + m22 p1 * m21 q2);
    (86%nat, m12 p2 * m11 q2 - m12 p2 * m12 q1 - m21 p2 * m11 q2 + m21 p2 * m21 q1 + m22 p1 * m12 q1 - m22 p1 * m21 q1);
    (87%nat, m12 p2 * m10 q2 - m12 p2 * m12 q0 + m12 p2 * m20 q1 - m12 p2 * m21 q0 - m21 p2 * m01 q2 - m21 p2 * m02 q1 + m21 p2 * m12 q0 + m21 p2 * m21 q0 + m22 p1 * m01 q2 + m22 p1 * m02 q1 - m22 p1 * m10 q2 - m22 p1 * m20 q1);
    (89%nat, - m11 p2 * m12 q1 + m11 p2 * m21 q1 + m12 p1 * m11 q2 - m12 p1 * m21 q1 - m21 p1 * m11 q2 + m21 p1 * m12 q1);
    (91%nat, m11 p2 * m01 q1 - m11 p2 * m10 q1 - m12 p1 * m01 q1 + m12 p1 * m11 q0 + m21 p1 * m10 q1 - m21 p1 * m11 q0);
    (92%nat, - m12 p2 * m11 q2 + m12 p2 * m12 q1 + m21 p2 * m11 q2 - m21 p2 * m21 q1 - m22 p1 * m12 q1 + m22 p1 * m21 q1);
    (94%nat, m12 p2 * m10 q1 - m12 p2 * m11 q0 - m21 p2 * m01 q1 + m21 p2 * m11 q0 + m22 p1 * m01 q1 - m22 p1 * m10 q1);
    (97%nat, m01 p1 * m20 q2 - m01 p1 * m22 q0 - m10 p1 * m02 q2 + m10 p1 * m22 q0 + m11 p0 * m02 q2 - m11 p0 * m20 q2);
    (98%nat, m01 p1 * m10 q2 - m01 p1 * m12 q0 + m01 p1 * m20 q1 - m01 p1 * m21 q0 - m10 p1 * m01 q2 - m10 p1 * m02 q1 + m10 p1 * m12 q0 + m10 p1 * m21 q0 + m11 p0 * m01 q2 + m11 p0 * m02 q1 - m11 p0 * m10 q2 - m11 p0 * m20 q1);
    (99%nat, m01 p1 * m10 q1 - m01 p1 * m11 q0 - m10 p1 * m01 q1 + m10 p1 * m11 q0 + m11 p0 * m01 q1 - m11 p0 * m10 q1);
    (100%nat, m01 p1 * m00 q2 - m01 p1 * m02 q0 - m10 p1 * m00 q2 + m10 p1 * m20 q0 + m11 p0 * m02 q0 - m11 p0 * m20 q0);
    (101%nat, m01 p1 * m00 q1 - m01 p1 * m01 q0 - m10 p1 * m00 q1 + m10 p1 * m10 q0 + m11 p0 * m01 q0 - m11 p0 * m10 q0);
    (103%nat, - m01 p2 * m20 q2 + m01 p2 * m22 q0 - m02 p1 * m20 q2 + m02 p1 * m22 q0 + m10 p2 * m02 q2 - m10 p2 * m22 q0 - m12 p0 * m02 q2 + m12 p0 * m20 q2 + m20 p1 * m02 q2 - m20 p1 * m22 q0 - m21 p0 * m02 q2 + m21 p0 * m20 q2);
    (104%nat, - m01 p2 * m10 q2 + m01 p2 * m21 q0 + m02 p1 * m12 q0 - m02 p1 * m20 q1 + m10 p2 * m01 q2 - m10 p2 * m12 q0 - m12 p0 * m02 q1 + m12 p0 * m10 q2 + m20 p1 * m02 q1 - m20 p1 * m21 q0 - m21 p0 * m01 q2 + m21 p0 * m20 q1);
    (105%nat, - m01 p2 * m00 q2 + m01 p2 * m20 q0 + m02 p1 * m02 q0 - m02 p1 * m20 q0 + m10 p2 * m00 q2 - m10 p2 * m02 q0 + m12 p0 * m00 q2 - m12 p0 * m02 q0 + m20 p1 * m02 q0 - m20 p1 * m20 q0 - m21 p0 * m00 q2 + m21 p0 * m20 q0);
    (106%nat, m02 p2 * m20 q2 - m02 p2 * m22 q0 - m20 p2 * m02 q2 + m20 p2 * m22 q0 + m22 p0 * m02 q2 - m22 p0 * m20 q2);
    (107%nat, m01 p2 * m12 q0 - m01 p2 * m20 q1 - m02 p1 * m10 q2 + m02 p1 * m21 q0 + m10 p2 * m02 q1 - m10 p2 * m21 q0 - m12 p0 * m01 q2 + m12 p0 * m20 q1 + m20 p1 * m01 q2 - m20 p1 * m12 q0 - m21 p0 * m02 q1 + m21 p0 * m10 q2);
    (108%nat, - m01 p2 * m10 q1 + m01 p2 * m11 q0 - m02 p1 * m10 q1 + m02 p1 * m11 q0 + m10 p2 * m01 q1 - m10 p2 * m11 q0 - m12 p0 * m01 q1 + m12 p0 * m10 q1 + m20 p1 * m01 q1 - m20 p1 * m11 q0 - m21 p0 * m01 q1 + m21 p0 * m10 q1);
    (109%nat, - m01 p2 * m00 q1 + m01 p2 * m10 q0 + m02 p1 * m01 q0 - m02 p1 * m10 q0 + m10 p2 * m00 q1 - m10 p2 * m01 q0 + m12 p0 * m00 q1 - m12 p0 * m01 q0 + m20 p1 * m01 q0 - m20 p1 * m10 q0 - m21 p0 * m00 q1 + m21 p0 * m10 q0);
    (110%nat, m02 p2 * m10 q2 - m02 p2 * m12 q0 + m02 p2 * m20 q1 - m02 p2 * m21 q0 - m20 p2 * m01 q2 - m20 p2 * m02 q1 + m20 p2 * m12 q0 + m20 p2 * m21 q0 + m22 p0 * m01 q2 + m22 p0 * m02 q1 - m22 p0 * m10 q2 - m22 p0 * m20 q1);
    (111%nat, m02 p2 * m10 q1 - m02 p2 * m11 q0 - m20 p2 * m01 q1 + m20 p2 * m11 q0 + m22 p0 * m01 q1 - m22 p0 * m10 q1);
    (112%nat, m01 p2 * m02 q0 - m01 p2 * m20 q0 - m02 p1 * m00 q2 + m02 p1 * m20 q0 + m10 p2 * m02 q0 - m10 p2 * m20 q0 - m12 p0 * m00 q2 + m12 p0 * m20 q0 + m20 p1 * m00 q2 - m20 p1 * m02 q0 + m21 p0 * m00 q2 - m21 p0 * m02 q0);
    (113%nat, m01 p2 * m01 q0 - m01 p2 * m10 q0 - m02 p1 * m00 q1 + m02 p1 * m10 q0 + m10 p2 * m01 q0 - m10 p2 * m10 q0 - m12 p0 * m00 q1 + m12 p0 * m10 q0 + m20 p1 * m00 q1 - m20 p1 * m01 q0 + m21 p0 * m00 q1 - m21 p0 * m01 q0);
    (115%nat, m02 p2 * m00 q2 - m02 p2 * m02 q0 - m20 p2 * m00 q2 + m20 p2 * m20 q0 + m22 p0 * m02 q0 - m22 p0 * m20 q0);
    (116%nat, m02 p2 * m00 q1 - m02 p2 * m01 q0 - m20 p2 * m00 q1 + m20 p2 * m10 q0 + m22 p0 * m01 q0 - m22 p0 * m10 q0);
    (118%nat, - m11 p2 * m02 q2 + m11 p2 * m20 q2 + m12 p1 * m02 q2 - m12 p1 * m22 q0 - m21 p1 * m20 q2 + m21 p1 * m22 q0);
    (119%nat, - m11 p2 * m01 q2 + m11 p2 * m10 q2 + m11 p2 * m12 q0 - m11 p2 * m21 q0 + m12 p1 * m02 q1 - m12 p1 * m10 q2 - m12 p1 * m12 q0 + m12 p1 * m20 q1 + m21 p1 * m01 q2 - m21 p1 * m02 q1 - m21 p1 * m20 q1 + m21 p1 * m21 q0);
    (120%nat, m11 p2 * m02 q0 - m11 p2 * m20 q0 - m12 p1 * m00 q2 + m12 p1 * m20 q0 + m21 p1 * m00 q2 - m21 p1 * m02 q0);
    (121%nat, - m12 p2 * m20 q2 + m12 p2 * m22 q0 + m21 p2 * m02 q2 - m21 p2 * m22 q0 - m22 p1 * m02 q2 + m22 p1 * m20 q2);
    (122%nat, m12 p2 * m01 q2 - m12 p2 * m02 q1 - m12 p2 * m20 q1 + m12 p2 * m21 q0 + m21 p2 * m02 q1 - m21 p2 * m10 q2 - m21 p2 * m12 q0 + m21 p2 * m20 q1 - m22 p1 * m01 q2 + m22 p1 * m10 q2 + m22 p1 * m12 q0 - m22 p1 * m21 q0);
    (123%nat, m12 p2 * m00 q2 - m12 p2 * m02 q0 - m21 p2 * m00 q2 + m21 p2 * m20 q0 + m22 p1 * m02 q0 - m22 p1 * m20 q0);
    (125%nat, - m11 p2 * m02 q1 - m11 p2 * m12 q0 + m11 p2 * m20 q1 + m11 p2 * m21 q0 + m12 p1 * m01 q2 + m12 p1 * m10 q2 - m12 p1 * m20 q1 - m12 p1 * m21 q0 - m21 p1 * m01 q2 + m21 p1 * m02 q1 - m21 p1 * m10 q2 + m21 p1 * m12 q0);
    (126%nat, - m11 p2 * m01 q1 + m11 p2 * m10 q1 + m12 p1 * m01 q1 - m12 p1 * m11 q0 - m21 p1 * m10 q1 + m21 p1 * m11 q0);
    (127%nat, m11 p2 * m01 q0 - m11 p2 * m10 q0 - m12 p1 * m00 q1 + m12 p1 * m10 q0 + m21 p1 * m00 q1 - m21 p1 * m01 q0);
    (128%nat, - m12 p2 * m01 q2 + m12 p2 * m02 q1 - m12 p2 * m10 q2 + m12 p2 * m12 q0 + m21 p2 * m01 q2 + m21 p2 * m10 q2 - m21 p2 * m20 q1 - m21 p2 * m21 q0 - m22 p1 * m02 q1 - m22 p1 * m12 q0 + m22 p1 * m20 q1 + m22 p1 * m21 q0);
    (129%nat, - m12 p2 * m10 q1 + m12 p2 * m11 q0 + m21 p2 * m01 q1 - m21 p2 * m11 q0 - m22 p1 * m01 q1 + m22 p1 * m10 q1);
    (130%nat, m12 p2 * m00 q1 - m12 p2 * m01 q0 - m21 p2 * m00 q1 + m21 p2 * m10 q0 + m22 p1 * m01 q0 - m22 p1 * m10 q0);
    (133%nat, - m11 p2 * m02 q0 + m11 p2 * m20 q0 + m12 p1 * m00 q2 - m12 p1 * m20 q0 - m21 p1 * m00 q2 + m21 p1 * m02 q0);
    (134%nat, - m11 p2 * m01 q0 + m11 p2 * m10 q0 + m12 p1 * m00 q1 - m12 p1 * m10 q0 - m21 p1 * m00 q1 + m21 p1 * m01 q0);
    (136%nat, - m12 p2 * m00 q2 + m12 p2 * m02 q0 + m21 p2 * m00 q2 - m21 p2 * m20 q0 - m22 p1 * m02 q0 + m22 p1 * m20 q0);
    (137%nat, - m12 p2 * m00 q1 + m12 p2 * m01 q0 + m21 p2 * m00 q1 - m21 p2 * m10 q0 - m22 p1 * m01 q0 + m22 p1 * m10 q0) ].
