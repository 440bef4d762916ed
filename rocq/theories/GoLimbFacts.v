(** The programs of GoLimbCode.v compute the functions of ScalarCode.v, Fe51Code.v and Fe25Code.v, may be
    run with any aliasing of their arguments, and have traces that do not depend on the data. *)
From Coq Require Import ZArith List String Lia.
From Verif Require Import Words ScalarCode ScalarModel Fe51Code Fe25Code GoLang GoLangFacts GoLimbCode GoViews.
Import ListNotations.
Open Scope Z_scope.

Lemma sc_of_ext c c' : (forall i, c i = c' i) -> sc_of c = sc_of c'.
Proof. intro h. unfold sc_of. rewrite !h. reflexivity. Qed.
Lemma fe51_of_ext c c' : (forall i, c i = c' i) -> fe51_of c = fe51_of c'.
Proof. intro h. unfold fe51_of. rewrite !h. reflexivity. Qed.
Lemma fe25_of_ext c c' : (forall i, c i = c' i) -> fe25_of c = fe25_of c'.
Proof. intro h. unfold fe25_of. rewrite !h. reflexivity. Qed.

Ltac red_prog :=
  cbv beta iota delta [runk prog fold_right vals map fst snd ixval upd Nat.eqb Nat.add andb rho0 sc_of fe51_of fe25_of bytes_of seq].

Lemma link_sc_sub nu : runk (E:=Empty_set) nosub rho0 (d_sc_sub 0 1 2 3) nu (fun m => sc_of (m 0%nat)) = sc_sub (sc_of (nu 1%nat)) (sc_of (nu 2%nat)).
Proof. unfold d_sc_sub, sc_sub. red_prog. reflexivity. Qed.
Lemma alias_sc_sub : alias_ok 3 [] (d_sc_sub 0 1 2 3) = true.
Proof. vm_compute. reflexivity. Qed.
Lemma ct_sc_sub a b c n : ct (d_sc_sub a b c n) = true.
Proof. reflexivity. Qed.

Lemma link_sc_add nu : sc_of (nu 3%nat) = scL ->
  runk (E:=Empty_set) nosub rho0 (d_sc_add 0 1 2 3 4) nu (fun m => sc_of (m 0%nat)) = sc_add (sc_of (nu 1%nat)) (sc_of (nu 2%nat)).
Proof.
  unfold sc_add. intro h. rewrite <- h. unfold d_sc_add, d_sc_sub, sc_sub. red_prog. reflexivity.
Qed.
Lemma alias_sc_add : alias_ok 3 [] (d_sc_add 0 1 2 3 4) = true.
Proof. vm_compute. reflexivity. Qed.
Lemma ct_sc_add a b c d n : ct (d_sc_add a b c d n) = true.
Proof. reflexivity. Qed.

Lemma link_sc_neg nu : sc_of (nu 2%nat) = scZero ->
  runk (E:=Empty_set) nosub rho0 (d_sc_neg 0 1 2 3) nu (fun m => sc_of (m 0%nat)) = sc_neg (sc_of (nu 1%nat)).
Proof.
  unfold sc_neg. intro h. rewrite <- h. unfold d_sc_neg, d_sc_sub, sc_sub. red_prog. reflexivity.
Qed.
Lemma alias_sc_neg : alias_ok 2 [] (d_sc_neg 0 1 2 3) = true.
Proof. vm_compute. reflexivity. Qed.
Lemma ct_sc_neg a b c n : ct (d_sc_neg a b c n) = true.
Proof. reflexivity. Qed.

Lemma link_sc_square nu : runk (E:=Empty_set) nosub rho0 (d_sc_square 0 1 2) nu (fun m => sc_of (m 0%nat)) = sc_square (sc_of (nu 1%nat)).
Proof. unfold d_sc_square, sc_square, d_sc_reduceAfterMul, sc_reduceAfterMul. red_prog. reflexivity. Qed.
Lemma alias_sc_square : alias_ok 2 [] (d_sc_square 0 1 2) = true.
Proof. vm_compute. reflexivity. Qed.
Lemma ct_sc_square a b n : ct (d_sc_square a b n) = true.
Proof. reflexivity. Qed.

Lemma link_sc_mul nu : runk (E:=Empty_set) nosub rho0 (d_sc_mul 0 1 2 3) nu (fun m => sc_of (m 0%nat)) = sc_mul (sc_of (nu 1%nat)) (sc_of (nu 2%nat)).
Proof. unfold d_sc_mul, sc_mul, d_sc_reduceAfterMul, sc_reduceAfterMul. red_prog. reflexivity. Qed.
Lemma alias_sc_mul : alias_ok 3 [] (d_sc_mul 0 1 2 3) = true.
Proof. vm_compute. reflexivity. Qed.
Lemma ct_sc_mul a b c n : ct (d_sc_mul a b c n) = true.
Proof. reflexivity. Qed.

Lemma link_sc_mulAdd nu : runk (E:=Empty_set) nosub rho0 (d_sc_mulAdd 0 1 2 3 4) nu (fun m => sc_of (m 0%nat)) = sc_mulAdd (sc_of (nu 1%nat)) (sc_of (nu 2%nat)) (sc_of (nu 3%nat)).
Proof. unfold d_sc_mulAdd, sc_mulAdd, d_sc_reduceAfterMul, sc_reduceAfterMul. red_prog. reflexivity. Qed.
Lemma alias_sc_mulAdd : alias_ok 4 [] (d_sc_mulAdd 0 1 2 3 4) = true.
Proof. vm_compute. reflexivity. Qed.
Lemma ct_sc_mulAdd a b c d n : ct (d_sc_mulAdd a b c d n) = true.
Proof. reflexivity. Qed.

Lemma link_sc_mulSub nu : runk (E:=Empty_set) nosub rho0 (d_sc_mulSub 0 1 2 3 4) nu (fun m => sc_of (m 0%nat)) = sc_mulSub (sc_of (nu 1%nat)) (sc_of (nu 2%nat)) (sc_of (nu 3%nat)).
Proof. unfold d_sc_mulSub, sc_mulSub, d_sc_reduceAfterMul, sc_reduceAfterMul. red_prog. reflexivity. Qed.
Lemma alias_sc_mulSub : alias_ok 4 [] (d_sc_mulSub 0 1 2 3 4) = true.
Proof. vm_compute. reflexivity. Qed.
Lemma ct_sc_mulSub a b c d n : ct (d_sc_mulSub a b c d n) = true.
Proof. reflexivity. Qed.

Lemma link_sc_condSet nu : runk (E:=Empty_set) nosub rho0 (d_sc_condSet 0 1 2 3) nu (fun m => sc_of (m 0%nat)) = sc_condSet (sc_of (nu 0%nat)) (sc_of (nu 1%nat)) (nu 2%nat 0%nat).
Proof. unfold d_sc_condSet, sc_condSet. red_prog. reflexivity. Qed.
Lemma alias_sc_condSet : alias_ok 2 [] (d_sc_condSet 0 1 2 3) = true.
Proof. vm_compute. reflexivity. Qed.
Lemma ct_sc_condSet a b c n : ct (d_sc_condSet a b c n) = true.
Proof. reflexivity. Qed.

Lemma link_r51_neg nu : runk (E:=Empty_set) nosub rho0 (d_r51_neg 0 1 2) nu (fun m => fe51_of (m 0%nat)) = r51_neg (fe51_of (nu 1%nat)).
Proof. unfold d_r51_neg, r51_neg. red_prog. reflexivity. Qed.
Lemma alias_r51_neg : alias_ok 2 [] (d_r51_neg 0 1 2) = true.
Proof. vm_compute. reflexivity. Qed.
Lemma ct_r51_neg a b n : ct (d_r51_neg a b n) = true.
Proof. reflexivity. Qed.

Lemma link_r51_sub nu : runk (E:=Empty_set) nosub rho0 (d_r51_sub 0 1 2 3) nu (fun m => fe51_of (m 0%nat)) = r51_sub (fe51_of (nu 1%nat)) (fe51_of (nu 2%nat)).
Proof. unfold d_r51_sub, r51_sub. red_prog. reflexivity. Qed.
Lemma alias_r51_sub : alias_ok 3 [] (d_r51_sub 0 1 2 3) = true.
Proof. vm_compute. reflexivity. Qed.
Lemma ct_r51_sub a b c n : ct (d_r51_sub a b c n) = true.
Proof. reflexivity. Qed.

Lemma link_r51_add nu : runk (E:=Empty_set) nosub rho0 (d_r51_add 0 1 2 3) nu (fun m => fe51_of (m 0%nat)) = r51_add (fe51_of (nu 1%nat)) (fe51_of (nu 2%nat)).
Proof. unfold d_r51_add, r51_add. red_prog. reflexivity. Qed.
Lemma alias_r51_add : alias_ok 3 [] (d_r51_add 0 1 2 3) = true.
Proof. vm_compute. reflexivity. Qed.
Lemma ct_r51_add a b c n : ct (d_r51_add a b c n) = true.
Proof. reflexivity. Qed.

Lemma link_r51_setReduced nu : runk (E:=Empty_set) nosub rho0 (d_r51_setReduced 0 1 2) nu (fun m => fe51_of (m 0%nat)) = r51_setReduced (fe51_of (nu 1%nat)).
Proof. unfold d_r51_setReduced, r51_setReduced. red_prog. reflexivity. Qed.
Lemma alias_r51_setReduced : alias_ok 2 [] (d_r51_setReduced 0 1 2) = true.
Proof. vm_compute. reflexivity. Qed.
Lemma ct_r51_setReduced a b n : ct (d_r51_setReduced a b n) = true.
Proof. reflexivity. Qed.

Lemma link_r51_condSet nu : runk (E:=Empty_set) nosub rho0 (d_r51_condSet 0 1 2 3) nu (fun m => fe51_of (m 0%nat)) = r51_condSet (fe51_of (nu 0%nat)) (fe51_of (nu 1%nat)) (nu 2%nat 0%nat).
Proof. unfold d_r51_condSet, r51_condSet. red_prog. reflexivity. Qed.
Lemma alias_r51_condSet : alias_ok 2 [] (d_r51_condSet 0 1 2 3) = true.
Proof. vm_compute. reflexivity. Qed.
Lemma ct_r51_condSet a b c n : ct (d_r51_condSet a b c n) = true.
Proof. reflexivity. Qed.

Lemma link_r51_mul nu : runk (E:=Empty_set) nosub rho0 (d_r51_mul 0 1 2 3) nu (fun m => fe51_of (m 0%nat)) = r51_mul (fe51_of (nu 1%nat)) (fe51_of (nu 2%nat)).
Proof. unfold d_r51_mul, r51_mul. red_prog. reflexivity. Qed.
Lemma alias_r51_mul : alias_ok 3 [] (d_r51_mul 0 1 2 3) = true.
Proof. vm_compute. reflexivity. Qed.
Lemma ct_r51_mul a b c n : ct (d_r51_mul a b c n) = true.
Proof. reflexivity. Qed.

Lemma link_r51_square nu : runk (E:=Empty_set) nosub rho0 (d_r51_square 0 1 2) nu (fun m => fe51_of (m 0%nat)) = r51_square (fe51_of (nu 1%nat)).
Proof. unfold d_r51_square, r51_square. red_prog. reflexivity. Qed.
Lemma alias_r51_square : alias_ok 2 [] (d_r51_square 0 1 2) = true.
Proof. vm_compute. reflexivity. Qed.
Lemma ct_r51_square a b n : ct (d_r51_square a b n) = true.
Proof. reflexivity. Qed.

Lemma link_r51_doubledSquare nu : runk (E:=Empty_set) nosub rho0 (d_r51_doubledSquare 0 1 2) nu (fun m => fe51_of (m 0%nat)) = r51_doubledSquare (fe51_of (nu 1%nat)).
Proof. unfold d_r51_doubledSquare, r51_doubledSquare. red_prog. reflexivity. Qed.
Lemma alias_r51_doubledSquare : alias_ok 2 [] (d_r51_doubledSquare 0 1 2) = true.
Proof. vm_compute. reflexivity. Qed.
Lemma ct_r51_doubledSquare a b n : ct (d_r51_doubledSquare a b n) = true.
Proof. reflexivity. Qed.

Lemma link_g25_neg nu : runk (E:=Empty_set) nosub rho0 (d_g25_neg 0 1 2) nu (fun m => fe25_of (m 0%nat)) = g25_neg (fe25_of (nu 1%nat)).
Proof. unfold d_g25_neg, g25_neg. red_prog. reflexivity. Qed.
Lemma alias_g25_neg : alias_ok 2 [] (d_g25_neg 0 1 2) = true.
Proof. vm_compute. reflexivity. Qed.
Lemma ct_g25_neg a b n : ct (d_g25_neg a b n) = true.
Proof. reflexivity. Qed.

Lemma link_g25_add nu : runk (E:=Empty_set) nosub rho0 (d_g25_add 0 1 2 3) nu (fun m => fe25_of (m 0%nat)) = g25_add (fe25_of (nu 1%nat)) (fe25_of (nu 2%nat)).
Proof. unfold d_g25_add, g25_add. red_prog. reflexivity. Qed.
Lemma alias_g25_add : alias_ok 3 [] (d_g25_add 0 1 2 3) = true.
Proof. vm_compute. reflexivity. Qed.
Lemma ct_g25_add a b c n : ct (d_g25_add a b c n) = true.
Proof. reflexivity. Qed.

Lemma link_g25_sub nu : runk (E:=Empty_set) nosub rho0 (d_g25_sub 0 1 2 3) nu (fun m => fe25_of (m 0%nat)) = g25_sub (fe25_of (nu 1%nat)) (fe25_of (nu 2%nat)).
Proof. unfold d_g25_sub, g25_sub. red_prog. reflexivity. Qed.
Lemma alias_g25_sub : alias_ok 3 [] (d_g25_sub 0 1 2 3) = true.
Proof. vm_compute. reflexivity. Qed.
Lemma ct_g25_sub a b c n : ct (d_g25_sub a b c n) = true.
Proof. reflexivity. Qed.

Lemma link_g25_normalize nu : runk (E:=Empty_set) nosub rho0 (d_g25_normalize 0 1) nu (fun m => fe25_of (m 0%nat)) = g25_normalize (fe25_of (nu 0%nat)).
Proof. unfold d_g25_normalize, g25_normalize, d_g25_setReduced, g25_setReduced. red_prog. reflexivity. Qed.
Lemma alias_g25_normalize : alias_ok 1 [] (d_g25_normalize 0 1) = true.
Proof. vm_compute. reflexivity. Qed.
Lemma ct_g25_normalize a n : ct (d_g25_normalize a n) = true.
Proof. reflexivity. Qed.

Lemma link_g25_condSet nu : runk (E:=Empty_set) nosub rho0 (d_g25_condSet 0 1 2 3) nu (fun m => fe25_of (m 0%nat)) = g25_condSet (fe25_of (nu 0%nat)) (fe25_of (nu 1%nat)) (nu 2%nat 0%nat).
Proof. unfold d_g25_condSet, g25_condSet. red_prog. reflexivity. Qed.
Lemma alias_g25_condSet : alias_ok 2 [] (d_g25_condSet 0 1 2 3) = true.
Proof. vm_compute. reflexivity. Qed.
Lemma ct_g25_condSet a b c n : ct (d_g25_condSet a b c n) = true.
Proof. reflexivity. Qed.

Lemma link_g25_mul nu : runk (E:=Empty_set) nosub rho0 (d_g25_mul 0 1 2 3) nu (fun m => fe25_of (m 0%nat)) = g25_mul (fe25_of (nu 1%nat)) (fe25_of (nu 2%nat)).
Proof. unfold d_g25_mul, g25_mul, d_g25_setReduced, g25_setReduced. red_prog. reflexivity. Qed.
Lemma alias_g25_mul : alias_ok 3 [] (d_g25_mul 0 1 2 3) = true.
Proof. vm_compute. reflexivity. Qed.
Lemma ct_g25_mul a b c n : ct (d_g25_mul a b c n) = true.
Proof. reflexivity. Qed.

Lemma link_g25_square nu : runk (E:=Empty_set) nosub rho0 (d_g25_square 0 1 2) nu (fun m => fe25_of (m 0%nat)) = g25_square (fe25_of (nu 1%nat)).
Proof. unfold d_g25_square, g25_square, d_g25_setReduced, g25_setReduced, d_g25_squareRaw, g25_squareRaw. red_prog. reflexivity. Qed.
Lemma alias_g25_square : alias_ok 2 [] (d_g25_square 0 1 2) = true.
Proof. vm_compute. reflexivity. Qed.
Lemma ct_g25_square a b n : ct (d_g25_square a b n) = true.
Proof. reflexivity. Qed.

Lemma link_g25_doubledSquare nu : runk (E:=Empty_set) nosub rho0 (d_g25_doubledSquare 0 1 2) nu (fun m => fe25_of (m 0%nat)) = g25_doubledSquare (fe25_of (nu 1%nat)).
Proof. unfold d_g25_doubledSquare, g25_doubledSquare, d_g25_setReduced, g25_setReduced, d_g25_squareRaw, g25_squareRaw. red_prog. reflexivity. Qed.
Lemma alias_g25_doubledSquare : alias_ok 2 [] (d_g25_doubledSquare 0 1 2) = true.
Proof. vm_compute. reflexivity. Qed.
Lemma ct_g25_doubledSquare a b n : ct (d_g25_doubledSquare a b n) = true.
Proof. reflexivity. Qed.

Lemma link_sc_bytes nu : runk (E:=Empty_set) nosub rho0 (d_sc_bytes 0 1 2) nu (fun m => bytes_of (m 1%nat)) = sc_bytes (sc_of (nu 0%nat)).
Proof. unfold d_sc_bytes, sc_bytes. red_prog. reflexivity. Qed.
Lemma ct_sc_bytes a b n : ct (d_sc_bytes a b n) = true.
Proof. reflexivity. Qed.

Lemma link_r51_bytes nu : runk (E:=Empty_set) nosub rho0 (d_r51_bytes 0 1 2) nu (fun m => bytes_of (m 1%nat)) = r51_bytes (fe51_of (nu 0%nat)).
Proof. unfold d_r51_bytes, r51_bytes, d_r51_setReduced, r51_setReduced. red_prog. reflexivity. Qed.
Lemma ct_r51_bytes a b n : ct (d_r51_bytes a b n) = true.
Proof. reflexivity. Qed.

Lemma link_g25_bytes nu : runk (E:=Empty_set) nosub rho0 (d_g25_bytes 0 1 2) nu (fun m => (bytes_of (m 1%nat), fe25_of (m 0%nat))) = g25_bytes (fe25_of (nu 0%nat)).
Proof. unfold d_g25_bytes, g25_bytes. red_prog. reflexivity. Qed.
Lemma ct_g25_bytes a b n : ct (d_g25_bytes a b n) = true.
Proof. reflexivity. Qed.

