(* Primality of the field and group orders of P-256 and of 2^255-19, by
   Pocklington certificates. *)
From Coq Require Import ZArith List Lia Znumtheory.
From Verif.Proofs Require Import Number.
Import ListNotations.
Open Scope Z_scope.

Local Ltac small := apply small_prime_ok; vm_compute; reflexivity.
Local Ltac cert a q l := apply (pock_prime _ a q l);
  [vm_compute; reflexivity
  |repeat (apply NoDup_cons; [cbn; intuition discriminate|]); apply NoDup_nil
  |repeat (apply Forall_cons; [assumption|]); apply Forall_nil].

Lemma P991 : prime 991.
Proof. small. Qed.

Lemma P103 : prime 103.
Proof. small. Qed.

Lemma P8574133 : prime 8574133.
Proof.
  pose proof P991. pose proof P103.
  cert 2 991 ([103]).
Qed.

Lemma P127 : prime 127.
Proof. small. Qed.

Lemma P1919519569386763 : prime 1919519569386763.
Proof.
  pose proof P8574133. pose proof P127.
  cert 2 8574133 ([127]).
Qed.

Lemma P569003 : prime 569003.
Proof. small. Qed.

Lemma P2773320623 : prime 2773320623.
Proof.
  pose proof P569003.
  cert 2 569003 (@nil Z).
Qed.

Lemma P72106336199 : prime 72106336199.
Proof.
  pose proof P2773320623.
  cert 2 2773320623 (@nil Z).
Qed.

Lemma P75445702479781427272750846543864801 : prime 75445702479781427272750846543864801.
Proof.
  pose proof P1919519569386763. pose proof P72106336199.
  cert 2 1919519569386763 ([72106336199]).
Qed.

Lemma P430751 : prime 430751.
Proof. small. Qed.

Lemma P4153 : prime 4153.
Proof. small. Qed.

Lemma P31757755568855353 : prime 31757755568855353.
Proof.
  pose proof P430751. pose proof P4153.
  cert 2 430751 ([4153]).
Qed.

Lemma P74058212732561358302231226437062788676166966415465897661863160754340907 : prime 74058212732561358302231226437062788676166966415465897661863160754340907.
Proof.
  pose proof P75445702479781427272750846543864801. pose proof P31757755568855353.
  cert 2 75445702479781427272750846543864801 ([31757755568855353]).
Qed.

Lemma prime_25519 : prime 57896044618658097711785492504343953926634992332820282019728792003956564819949.
Proof.
  pose proof P74058212732561358302231226437062788676166966415465897661863160754340907.
  cert 2 74058212732561358302231226437062788676166966415465897661863160754340907 (@nil Z).
Qed.

Lemma P704251 : prime 704251.
Proof. small. Qed.

Lemma P78283 : prime 78283.
Proof. small. Qed.

Lemma P46076956964474543 : prime 46076956964474543.
Proof.
  pose proof P704251. pose proof P78283.
  cert 2 704251 ([78283]).
Qed.

Lemma P3677 : prime 3677.
Proof. small. Qed.

Lemma P197 : prime 197.
Proof. small. Qed.

Lemma P66417393611 : prime 66417393611.
Proof.
  pose proof P3677. pose proof P197.
  cert 2 3677 ([197]).
Qed.

Lemma P11290956913871 : prime 11290956913871.
Proof.
  pose proof P66417393611.
  cert 2 66417393611 (@nil Z).
Qed.

Lemma P774023187263532362759620327192479577272145303 : prime 774023187263532362759620327192479577272145303.
Proof.
  pose proof P46076956964474543. pose proof P11290956913871.
  cert 2 46076956964474543 ([11290956913871]).
Qed.

Lemma P835945042244614951780389953367877943453916927241 : prime 835945042244614951780389953367877943453916927241.
Proof.
  pose proof P774023187263532362759620327192479577272145303.
  cert 2 774023187263532362759620327192479577272145303 (@nil Z).
Qed.

Lemma prime_p256 : prime 115792089210356248762697446949407573530086143415290314195533631308867097853951.
Proof.
  pose proof P835945042244614951780389953367877943453916927241.
  cert 2 835945042244614951780389953367877943453916927241 (@nil Z).
Qed.

Lemma P155317 : prime 155317.
Proof. small. Qed.

Lemma P191039911 : prime 191039911.
Proof.
  pose proof P155317.
  cert 2 155317 (@nil Z).
Qed.

Lemma P3023 : prime 3023.
Proof. small. Qed.

Lemma P208150935158385979 : prime 208150935158385979.
Proof.
  pose proof P191039911. pose proof P3023.
  cert 2 191039911 ([3023]).
Qed.

Lemma P2624747550333869278416773953 : prime 2624747550333869278416773953.
Proof.
  pose proof P208150935158385979.
  cert 2 208150935158385979 (@nil Z).
Qed.

Lemma P104471 : prime 104471.
Proof. small. Qed.

Lemma P3969899 : prime 3969899.
Proof.
  pose proof P104471.
  cert 2 104471 (@nil Z).
Qed.

Lemma P1002328039319 : prime 1002328039319.
Proof.
  pose proof P3969899.
  cert 2 3969899 (@nil Z).
Qed.

Lemma prime_n256 : prime 115792089210356248762697446949407573529996955224135760342422259061068512044369.
Proof.
  pose proof P2624747550333869278416773953. pose proof P1002328039319.
  cert 2 2624747550333869278416773953 ([1002328039319]).
Qed.
