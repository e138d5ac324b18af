b=[(9,0,1),(10,1,2),(11,3,3),(12,6,4),(13,10,7),(14,17,5),(15,22,6),(16,28,8),(17,36,2),(18,38,4),(19,42,10),(20,52,10),(21,62,5),(22,67,5),(23,72,5),(24,77,14),(25,91,14),(26,105,14),(27,119,19),(28,138,19),(29,157,19),(30,176,7),(31,183,7)]
n=[[21,30,33,44,48,53,65,69,74,80],[20,29,32,43,47,52,64,68,73,79],[19,28,31,42,46,51,63,67,72,78]]
D={9:[32,52,79],10:[32,52,79],11:[31,51,78],12:[31,51,78],13:[31,51,78],14:[31,51,78],15:[31,51,78]}
D={t:[(c,c) for c in l] for t,l in D.items()}
D[30]=[(n[0][m],n[1][m]) for m in range(4,10)]
D[31]=[(n[0][m],n[2][m]) for m in range(4,10)]
P={10:n[0],12:n[1],15:n[0],18:n[0],20:n[0],30:[56],31:[56]}
o=[]
o.append('''(** gp3p, the elimination template cut into rows: every row 9..31 is built once, by
    one sPolynomial and reductions by earlier rows
    (src/absolute_pose/modules/gp3p/code.cpp; the operations are those of
    Gp3pData), and the supports of the rows, with the terms that cancel. *)
From Coq Require Import Reals List Arith Bool.
From Verif Require Import GbModel GbProps GpnpGb GbSeg Gp3pData Gp3pInit.
Import ListNotations.

Definition cut (t a n : nat) : grow := (t, nth a gp_compute (GN 0 0), firstn (n - 1) (skipn (a + 1) gp_compute)).''')
for t,a,l in b: o.append(f'Definition R{t} : grow := Eval vm_compute in cut {t} {a} {l}.')
o.append('Definition gp_rowl : list grow := ['+'; '.join(f'R{t}' for t,_,_ in b)+'].')
o.append('Definition gp_rest : list gop := Eval vm_compute in skipn 190 gp_compute.')
o.append('''Lemma gp_split : gp_compute = flat_map row_ops gp_rowl ++ gp_rest.
Proof. vm_compute. reflexivity. Qed.
(** terms of the two rows of an sPolynomial that cancel; entries that vanish after
    the row is built, beyond the leads that were reduced *)
Definition gp_drop (t : nat) : list (nat * nat) :=
  match t with''')
pr=lambda l:'['+'; '.join(f'({a}, {c})' for a,c in l)+']'
nl=lambda l:'['+'; '.join(map(str,l))+']'
for t in sorted(D): o.append(f'  | {t} => {pr(D[t])}')
o.append('  | _ => []\n  end%nat.\nDefinition gp_prune (t : nat) : list nat :=\n  match t with')
for t in sorted(P): o.append(f'  | {t} => {nl(P[t])}')
o.append('  | _ => []\n  end%nat.')
o.append('''Definition gstate : Type := supp * list (nat * nat).
Definition gp_pre (r : grow) (st : gstate) : option gstate := let '(t, s, rs) := r in
  match gcheckd 48 85 6 gp_mon s (gp_drop t) st with Some st => gcheck 48 85 6 gp_mon rs st | None => None end.
Definition gp_post (r : grow) (st : gstate) : gstate := let '(t, _, _) := r in match gp_prune t with [] => st | l => prune 85 t l st end.
Definition st8 : gstate := Eval vm_compute in (supp0 48 85 gp_keys, []).''')
for t,_,_ in b:
    o.append(f'''Definition pre{t} : gstate := Eval vm_compute in match gp_pre R{t} st{t-1} with Some st => st | None => ([], []) end.
Definition st{t} : gstate := Eval vm_compute in gp_post R{t} pre{t}.
Lemma pre{t}_ok : gp_pre R{t} st{t-1} = Some pre{t}.
Proof. vm_compute. reflexivity. Qed.''')
open('/verif/rocq/theories/Gp3pRows.v','w').write('\n'.join(o)+'\n')
