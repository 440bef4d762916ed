(** Pocklington certificates for p and l.  Generated by tools/gen_primes.py; data only,
    checked in Primes.v. *)
From Coq Require Import ZArith List.
From Verif Require Import DigitTables.
Import ListNotations.
Local Open Scope Z_scope.

(** n, base a, number of digits, -1/n mod 64, and for each used prime factor q of n-1
    an inverse of (a^((n-1)/q) - 1) * 64^k modulo n. *)
Record cert := mkCert { c_n : Z; c_a : dg; c_k : nat; c_n' : dg; c_fs : list (Z * Z) }.

Definition certs : list cert := [
  mkCert 3 d2 4 d21 [(2, 1)];
  mkCert 7 d2 4 d9 [(3, 5)];
  mkCert 43 d2 4 d61 [(7, 18)];
  mkCert 173 d2 5 d27 [(43, 136)];
  mkCert 4153 d2 6 d55 [(173, 569)];
  mkCert 5 d2 4 d51 [(2, 2); (2, 2)];
  mkCert 41 d6 4 d39 [(5, 2); (2, 32)];
  mkCert 1723 d2 5 d13 [(41, 398); (7, 1566)];
  mkCert 430751 d2 7 d33 [(1723, 83970)];
  mkCert 31757755568855353 d2 13 d55 [(430751, 274570098584586); (4153, 29386656755031354)];
  mkCert 97 d5 5 d31 [(3, 30); (2, 72); (2, 72)];
  mkCert 11 d2 4 d29 [(5, 3)];
  mkCert 19 d2 4 d37 [(3, 5); (3, 5)];
  mkCert 419 d2 5 d53 [(19, 8); (11, 389)];
  mkCert 569003 d2 7 d61 [(419, 470066); (97, 225752)];
  mkCert 2773320623 d2 9 d49 [(569003, 2263871404)];
  mkCert 72106336199 d2 10 d9 [(2773320623, 38479216369)];
  mkCert 127 d3 5 d1 [(7, 53); (3, 65)];
  mkCert 17 d3 4 d15 [(2, 8); (2, 8); (2, 8)];
  mkCert 103 d2 5 d41 [(17, 60)];
  mkCert 991 d2 5 d33 [(11, 622); (5, 525)];
  mkCert 8574133 d2 7 d35 [(991, 2749799); (103, 2095765)];
  mkCert 1919519569386763 d2 12 d29 [(8574133, 780952320871847); (127, 64153103429242)];
  mkCert 75445702479781427272750846543864801 d2 23 d31 [(1919519569386763, 6945007655950571625259289956605088); (72106336199, 20268860059803115641881812289822506)];
  mkCert 74058212732561358302231226437062788676166966415465897661863160754340907 d2 43 d61 [(75445702479781427272750846543864801, 55984055353819772132974780278566858235657624407853353633177932527545271); (31757755568855353, 12611274948969874578404049155825845437036844721606816465179711811677456)];
  mkCert 57896044618658097711785492504343953926634992332820282019728792003956564819949 d2 46 d27 [(74058212732561358302231226437062788676166966415465897661863160754340907, 11894119422136165404130649613908085376473051524169624737501166769722013777627)];
  mkCert 73 d2 5 d7 [(3, 52); (3, 52)];
  mkCert 3797 d2 5 d3 [(73, 916)];
  mkCert 531581 d2 7 d43 [(3797, 2246)];
  mkCert 2551 d2 5 d57 [(17, 736); (5, 1249)];
  mkCert 1224481 d2 7 d31 [(2551, 985657)];
  mkCert 1257559732178653 d2 12 d11 [(1224481, 867806685876760); (531581, 757810825345616)];
  mkCert 4434155615661930479 d2 14 d49 [(1257559732178653, 453196142429093835)];
  mkCert 172054593956031949258510691 d2 18 d53 [(4434155615661930479, 75356772030361958850927567)];
  mkCert 19757330305831588566944191468367130476339 d2 26 d5 [(172054593956031949258510691, 4370957486472960317095869087838890384653)];
  mkCert 276602624281642239937218680557139826668747 d2 26 d29 [(19757330305831588566944191468367130476339, 164405838153883671849263446955206834880798)];
  mkCert 7237005577332262213973186563042994240857116359379907606001950938285454250989 d2 46 d27 [(276602624281642239937218680557139826668747, 3738571201345911063805266655673020368857721778811740269707127714596325171765)]
].
