(** Generated by tools/gen_gbex.py: integer instances of the control point
    distance equations, used in examples and counterexamples. *)
From Coq Require Import List ZArith.
Import ListNotations.
Local Open Scope Z_scope.

(** 1 null space vector(s) (seed 0) *)
Definition e1_a : list Z := [3; -1; 4; -2; -2; -3; 0; -2; 3; 0; 4; 2].
Definition e1_n : list Z := [0; -1; 1; -2; 1; -2; -1; -2; 3; -3; 1; 3].
Definition e1_x : list Z := [-1].
Definition e1_c : list (list Z) := [[3; 0; 3]; [0; -3; -1]; [1; 0; 0]; [3; 3; -1]].
(** the same with all control points at one place *)
Definition e1_cells0 : list (nat * nat * Z) := [(0%nat,0%nat,17); (0%nat,1%nat,58); (0%nat,2%nat,75); (1%nat,0%nat,6); (1%nat,1%nat,4); (1%nat,2%nat,11); (2%nat,0%nat,17); (2%nat,1%nat,30); (2%nat,2%nat,38)].
Definition e1_cells : list (nat * nat * Z) := [(0%nat,0%nat,17); (0%nat,1%nat,58); (0%nat,2%nat,41); (1%nat,0%nat,6); (1%nat,1%nat,4); (1%nat,2%nat,-2); (2%nat,0%nat,17); (2%nat,1%nat,30); (2%nat,2%nat,13)].

(** 2 null space vector(s) (seed 3) *)
Definition e2_a : list Z := [-8; -5; -6; 2; 9; -1; 2; -7; -4; -9; -7; 6].
Definition e2_n : list Z := [3; 0; -1; 1; -2; -2; 2; 0; 1; 3; 1; 0].
Definition e2_m : list Z := [0; 2; 3; -2; -2; 2; -2; 3; 1; 0; 2; -3].
Definition e2_x : list Z := [2; 3].
Definition e2_c : list (list Z) := [[-2; 1; 1]; [-2; -1; 1]; [0; 2; 1]; [-3; 1; -3]].
(** the same with all control points at one place *)
Definition e2_cells0 : list (nat * nat * Z) := [(0%nat,0%nat,21); (0%nat,1%nat,26); (0%nat,2%nat,9); (0%nat,3%nat,-162); (0%nat,4%nat,-106); (0%nat,5%nat,321); (1%nat,0%nat,9); (1%nat,1%nat,-4); (1%nat,2%nat,5); (1%nat,3%nat,-52); (1%nat,4%nat,-12); (1%nat,5%nat,108); (2%nat,0%nat,36); (2%nat,1%nat,-12); (2%nat,2%nat,2); (2%nat,3%nat,-144); (2%nat,4%nat,20); (2%nat,5%nat,149); (3%nat,0%nat,26); (3%nat,1%nat,14); (3%nat,2%nat,14); (3%nat,3%nat,-154); (3%nat,4%nat,-82); (3%nat,5%nat,265); (4%nat,0%nat,45); (4%nat,1%nat,12); (4%nat,2%nat,17); (4%nat,3%nat,-242); (4%nat,4%nat,-112); (4%nat,5%nat,426)].
Definition e2_cells : list (nat * nat * Z) := [(0%nat,0%nat,21); (0%nat,1%nat,26); (0%nat,2%nat,9); (0%nat,3%nat,-162); (0%nat,4%nat,-106); (0%nat,5%nat,317); (1%nat,0%nat,9); (1%nat,1%nat,-4); (1%nat,2%nat,5); (1%nat,3%nat,-52); (1%nat,4%nat,-12); (1%nat,5%nat,103); (2%nat,0%nat,36); (2%nat,1%nat,-12); (2%nat,2%nat,2); (2%nat,3%nat,-144); (2%nat,4%nat,20); (2%nat,5%nat,132); (3%nat,0%nat,26); (3%nat,1%nat,14); (3%nat,2%nat,14); (3%nat,3%nat,-154); (3%nat,4%nat,-82); (3%nat,5%nat,252); (4%nat,0%nat,45); (4%nat,1%nat,12); (4%nat,2%nat,17); (4%nat,3%nat,-242); (4%nat,4%nat,-112); (4%nat,5%nat,405)].

(** 3 null space vector(s) (seed 5) *)
Definition e3_a : list Z := [4; -23; 17; -7; -3; 10; 8; 7; -1; -18; 8; 6].
Definition e3_n : list Z := [0; 3; -2; 2; -3; -2; -3; -1; 0; 3; -2; 0].
Definition e3_m : list Z := [1; -3; 1; -2; -3; 2; -2; 0; -1; -2; 3; 3].
Definition e3_k : list Z := [0; -2; 3; 3; -3; -2; 1; 1; 0; -2; -2; -3].
Definition e3_x : list Z := [3; -3; -2].
Definition e3_c : list (list Z) := [[1; -1; 2]; [-1; 3; 2]; [3; 2; 2]; [1; -3; 3]].
(** the same with all control points at one place *)
Definition e3_cells0 : list (nat * nat * Z) := [(0%nat,8%nat,35); (0%nat,9%nat,-28); (0%nat,10%nat,10); (0%nat,11%nat,24); (0%nat,12%nat,-12); (0%nat,13%nat,40); (0%nat,14%nat,-36); (0%nat,15%nat,52); (0%nat,16%nat,-284); (0%nat,17%nat,570); (1%nat,8%nat,19); (1%nat,9%nat,24); (1%nat,10%nat,22); (1%nat,11%nat,-42); (1%nat,12%nat,-14); (1%nat,13%nat,29); (1%nat,14%nat,296); (1%nat,15%nat,228); (1%nat,16%nat,-336); (1%nat,17%nat,1240); (2%nat,8%nat,40); (2%nat,9%nat,-12); (2%nat,10%nat,49); (2%nat,11%nat,-36); (2%nat,12%nat,-70); (2%nat,13%nat,38); (2%nat,14%nat,220); (2%nat,15%nat,460); (2%nat,16%nat,-486); (2%nat,17%nat,1566); (3%nat,8%nat,24); (3%nat,9%nat,12); (3%nat,10%nat,18); (3%nat,11%nat,44); (3%nat,12%nat,0); (3%nat,13%nat,33); (3%nat,14%nat,-24); (3%nat,15%nat,126); (3%nat,16%nat,-154); (3%nat,17%nat,446)].
Definition e3_cells : list (nat * nat * Z) := [(0%nat,8%nat,35); (0%nat,9%nat,-28); (0%nat,10%nat,10); (0%nat,11%nat,24); (0%nat,12%nat,-12); (0%nat,13%nat,40); (0%nat,14%nat,-36); (0%nat,15%nat,52); (0%nat,16%nat,-284); (0%nat,17%nat,550); (1%nat,8%nat,19); (1%nat,9%nat,24); (1%nat,10%nat,22); (1%nat,11%nat,-42); (1%nat,12%nat,-14); (1%nat,13%nat,29); (1%nat,14%nat,296); (1%nat,15%nat,228); (1%nat,16%nat,-336); (1%nat,17%nat,1227); (2%nat,8%nat,40); (2%nat,9%nat,-12); (2%nat,10%nat,49); (2%nat,11%nat,-36); (2%nat,12%nat,-70); (2%nat,13%nat,38); (2%nat,14%nat,220); (2%nat,15%nat,460); (2%nat,16%nat,-486); (2%nat,17%nat,1561); (3%nat,8%nat,24); (3%nat,9%nat,12); (3%nat,10%nat,18); (3%nat,11%nat,44); (3%nat,12%nat,0); (3%nat,13%nat,33); (3%nat,14%nat,-24); (3%nat,15%nat,126); (3%nat,16%nat,-154); (3%nat,17%nat,429)].

(** 4 null space vector(s) (seed 12) *)
Definition e4_a : list Z := [15; 7; 12; 7; 24; 14; -17; -11; -15; 19; 5; -7].
Definition e4_n : list Z := [2; 3; 0; 2; 3; 1; -2; 1; -3; 2; 1; -2].
Definition e4_m : list Z := [0; -1; -2; -1; -2; -3; 1; 3; -2; -3; 1; 2].
Definition e4_k : list Z := [3; -1; 2; 0; 3; 3; -3; -3; -3; 3; 2; 1].
Definition e4_l : list Z := [-2; -3; 0; 0; -3; 2; 0; -2; 1; -1; 1; 1].
Definition e4_x : list Z := [-2; 2; -3; 1].
Definition e4_c : list (list Z) := [[0; -1; 2]; [1; 2; -1]; [-2; 0; -3]; [-1; 0; -1]].
(** the same with all control points at one place *)
Definition e4_cells0 : list (nat * nat * Z) := [(0%nat,22%nat,8); (0%nat,23%nat,-8); (0%nat,24%nat,26); (0%nat,25%nat,-8); (0%nat,26%nat,-4); (0%nat,27%nat,3); (0%nat,28%nat,4); (0%nat,29%nat,2); (0%nat,30%nat,-2); (0%nat,31%nat,1); (0%nat,32%nat,-24); (0%nat,33%nat,188); (0%nat,34%nat,-22); (0%nat,35%nat,4); (0%nat,36%nat,357); (1%nat,22%nat,6); (1%nat,23%nat,-38); (1%nat,24%nat,65); (1%nat,25%nat,12); (1%nat,26%nat,-28); (1%nat,27%nat,17); (1%nat,28%nat,-26); (1%nat,29%nat,86); (1%nat,30%nat,-24); (1%nat,31%nat,29); (1%nat,32%nat,-218); (1%nat,33%nat,726); (1%nat,34%nat,-208); (1%nat,35%nat,490); (1%nat,36%nat,2077); (2%nat,22%nat,18); (2%nat,23%nat,22); (2%nat,24%nat,10); (2%nat,25%nat,18); (2%nat,26%nat,4); (2%nat,27%nat,29); (2%nat,28%nat,-20); (2%nat,29%nat,-8); (2%nat,30%nat,-24); (2%nat,31%nat,8); (2%nat,32%nat,-46); (2%nat,33%nat,26); (2%nat,34%nat,-184); (2%nat,35%nat,84); (2%nat,36%nat,381); (3%nat,22%nat,2); (3%nat,23%nat,0); (3%nat,24%nat,81); (3%nat,25%nat,8); (3%nat,26%nat,-84); (3%nat,27%nat,30); (3%nat,28%nat,4); (3%nat,29%nat,96); (3%nat,30%nat,-44); (3%nat,31%nat,36); (3%nat,32%nat,-12); (3%nat,33%nat,912); (3%nat,34%nat,-504); (3%nat,35%nat,564); (3%nat,36%nat,2642); (4%nat,22%nat,18); (4%nat,23%nat,-10); (4%nat,24%nat,14); (4%nat,25%nat,18); (4%nat,26%nat,-38); (4%nat,27%nat,38); (4%nat,28%nat,-10); (4%nat,29%nat,16); (4%nat,30%nat,-42); (4%nat,31%nat,13); (4%nat,32%nat,-134); (4%nat,33%nat,194); (4%nat,34%nat,-372); (4%nat,35%nat,202); (4%nat,36%nat,946)].
Definition e4_cells : list (nat * nat * Z) := [(0%nat,22%nat,8); (0%nat,23%nat,-8); (0%nat,24%nat,26); (0%nat,25%nat,-8); (0%nat,26%nat,-4); (0%nat,27%nat,3); (0%nat,28%nat,4); (0%nat,29%nat,2); (0%nat,30%nat,-2); (0%nat,31%nat,1); (0%nat,32%nat,-24); (0%nat,33%nat,188); (0%nat,34%nat,-22); (0%nat,35%nat,4); (0%nat,36%nat,338); (1%nat,22%nat,6); (1%nat,23%nat,-38); (1%nat,24%nat,65); (1%nat,25%nat,12); (1%nat,26%nat,-28); (1%nat,27%nat,17); (1%nat,28%nat,-26); (1%nat,29%nat,86); (1%nat,30%nat,-24); (1%nat,31%nat,29); (1%nat,32%nat,-218); (1%nat,33%nat,726); (1%nat,34%nat,-208); (1%nat,35%nat,490); (1%nat,36%nat,2047); (2%nat,22%nat,18); (2%nat,23%nat,22); (2%nat,24%nat,10); (2%nat,25%nat,18); (2%nat,26%nat,4); (2%nat,27%nat,29); (2%nat,28%nat,-20); (2%nat,29%nat,-8); (2%nat,30%nat,-24); (2%nat,31%nat,8); (2%nat,32%nat,-46); (2%nat,33%nat,26); (2%nat,34%nat,-184); (2%nat,35%nat,84); (2%nat,36%nat,370); (3%nat,22%nat,2); (3%nat,23%nat,0); (3%nat,24%nat,81); (3%nat,25%nat,8); (3%nat,26%nat,-84); (3%nat,27%nat,30); (3%nat,28%nat,4); (3%nat,29%nat,96); (3%nat,30%nat,-44); (3%nat,31%nat,36); (3%nat,32%nat,-12); (3%nat,33%nat,912); (3%nat,34%nat,-504); (3%nat,35%nat,564); (3%nat,36%nat,2625); (4%nat,22%nat,18); (4%nat,23%nat,-10); (4%nat,24%nat,14); (4%nat,25%nat,18); (4%nat,26%nat,-38); (4%nat,27%nat,38); (4%nat,28%nat,-10); (4%nat,29%nat,16); (4%nat,30%nat,-42); (4%nat,31%nat,13); (4%nat,32%nat,-134); (4%nat,33%nat,194); (4%nat,34%nat,-372); (4%nat,35%nat,202); (4%nat,36%nat,938)].

(** 5 null space vector(s) (seed 24) *)
Definition e5_a : list Z := [5; -6; 4; 1; -14; -5; -10; -13; 14; -8; 0; -26].
Definition e5_n : list Z := [2; 3; -2; 3; 2; -1; 2; 3; -3; 0; 0; 3].
Definition e5_m : list Z := [2; 2; -3; -3; 1; -2; 0; 2; 3; 0; 2; -1].
Definition e5_k : list Z := [0; -3; 2; 3; -1; 3; 1; -2; 2; -1; -1; -3].
Definition e5_l : list Z := [1; 2; -1; 2; -3; -2; -1; -1; 2; -3; -1; -3].
Definition e5_p : list Z := [-2; 2; 1; 3; -2; 3; 3; 0; 3; -1; -1; 1].
Definition e5_x : list Z := [2; -1; -2; -3; 1].
Definition e5_c : list (list Z) := [[2; 0; 3]; [1; -2; -2]; [-2; -2; -2]; [2; 2; -3]].
Definition e5_cells : list (nat * nat * Z) := [(0%nat,59%nat,45); (0%nat,60%nat,46); (0%nat,61%nat,27); (0%nat,62%nat,18); (0%nat,63%nat,-16); (0%nat,64%nat,14); (0%nat,65%nat,-38); (0%nat,66%nat,-2); (0%nat,67%nat,-32); (0%nat,68%nat,27); (0%nat,69%nat,22); (0%nat,70%nat,10); (0%nat,71%nat,4); (0%nat,72%nat,-6); (0%nat,73%nat,3); (0%nat,74%nat,-12); (0%nat,75%nat,90); (0%nat,76%nat,-74); (0%nat,77%nat,38); (0%nat,78%nat,-10); (0%nat,79%nat,131); (1%nat,59%nat,33); (1%nat,60%nat,4); (1%nat,61%nat,22); (1%nat,62%nat,6); (1%nat,63%nat,-10); (1%nat,64%nat,2); (1%nat,65%nat,4); (1%nat,66%nat,44); (1%nat,67%nat,-4); (1%nat,68%nat,40); (1%nat,69%nat,-4); (1%nat,70%nat,-6); (1%nat,71%nat,0); (1%nat,72%nat,-12); (1%nat,73%nat,1); (1%nat,74%nat,-82); (1%nat,75%nat,162); (1%nat,76%nat,-44); (1%nat,77%nat,180); (1%nat,78%nat,-20); (1%nat,79%nat,329); (2%nat,59%nat,10); (2%nat,60%nat,10); (2%nat,61%nat,29); (2%nat,62%nat,-14); (2%nat,63%nat,16); (2%nat,64%nat,30); (2%nat,65%nat,-4); (2%nat,66%nat,8); (2%nat,67%nat,-16); (2%nat,68%nat,8); (2%nat,69%nat,14); (2%nat,70%nat,14); (2%nat,71%nat,-58); (2%nat,72%nat,28); (2%nat,73%nat,38); (2%nat,74%nat,-62); (2%nat,75%nat,188); (2%nat,76%nat,350); (2%nat,77%nat,-68); (2%nat,78%nat,-284); (2%nat,79%nat,1065); (3%nat,59%nat,4); (3%nat,60%nat,8); (3%nat,61%nat,29); (3%nat,62%nat,-4); (3%nat,63%nat,0); (3%nat,64%nat,6); (3%nat,65%nat,4); (3%nat,66%nat,26); (3%nat,67%nat,-24); (3%nat,68%nat,35); (3%nat,69%nat,4); (3%nat,70%nat,-6); (3%nat,71%nat,6); (3%nat,72%nat,-24); (3%nat,73%nat,6); (3%nat,74%nat,4); (3%nat,75%nat,222); (3%nat,76%nat,4); (3%nat,77%nat,126); (3%nat,78%nat,-52); (3%nat,79%nat,474); (4%nat,59%nat,21); (4%nat,60%nat,48); (4%nat,61%nat,30); (4%nat,62%nat,56); (4%nat,63%nat,52); (4%nat,64%nat,52); (4%nat,65%nat,-26); (4%nat,66%nat,-28); (4%nat,67%nat,-36); (4%nat,68%nat,11); (4%nat,69%nat,4); (4%nat,70%nat,14); (4%nat,71%nat,-24); (4%nat,72%nat,-14); (4%nat,73%nat,29); (4%nat,74%nat,184); (4%nat,75%nat,188); (4%nat,76%nat,324); (4%nat,77%nat,-68); (4%nat,78%nat,-170); (4%nat,79%nat,700); (5%nat,59%nat,21); (5%nat,60%nat,36); (5%nat,61%nat,29); (5%nat,62%nat,34); (5%nat,63%nat,58); (5%nat,64%nat,30); (5%nat,65%nat,16); (5%nat,66%nat,40); (5%nat,67%nat,40); (5%nat,68%nat,16); (5%nat,69%nat,-2); (5%nat,70%nat,-52); (5%nat,71%nat,-58); (5%nat,72%nat,-48); (5%nat,73%nat,49); (5%nat,74%nat,118); (5%nat,75%nat,392); (5%nat,76%nat,418); (5%nat,77%nat,320); (5%nat,78%nat,-566); (5%nat,79%nat,1740)].
