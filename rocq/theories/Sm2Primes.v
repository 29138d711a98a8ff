(** The primes p (field) and n (group order) of the SM2 curve are prime. *)
From Coq Require Import ZArith Znumtheory List.
From Verif Require Import Primes.
Import ListNotations.
Open Scope Z_scope.

Lemma prime_79 : prime 79.
Proof. apply trial. vm_compute. reflexivity. Qed.
Lemma prime_97 : prime 97.
Proof. apply trial. vm_compute. reflexivity. Qed.
Lemma prime_2473 : prime 2473.
Proof. apply trial. vm_compute. reflexivity. Qed.
Lemma prime_5801 : prime 5801.
Proof. apply trial. vm_compute. reflexivity. Qed.
Lemma prime_34511 : prime 34511.
Proof. apply trial. vm_compute. reflexivity. Qed.
Lemma prime_54983 : prime 54983.
Proof. apply trial. vm_compute. reflexivity. Qed.
Lemma prime_84163 : prime 84163.
Proof. apply trial. vm_compute. reflexivity. Qed.
Lemma prime_363761 : prime 363761.
Proof. apply trial. vm_compute. reflexivity. Qed.
Lemma prime_3079049 : prime 3079049.
Proof.
  apply (pocklington _ 2 [54983]); [vm_compute; reflexivity|].
  apply Forall_cons; [exact prime_54983|].
  apply Forall_nil.
Qed.
Lemma prime_6158099 : prime 6158099.
Proof.
  apply (pocklington _ 2 [3079049]); [vm_compute; reflexivity|].
  apply Forall_cons; [exact prime_3079049|].
  apply Forall_nil.
Qed.
Lemma prime_8214737 : prime 8214737.
Proof.
  apply (pocklington _ 2 [97; 79]); [vm_compute; reflexivity|].
  apply Forall_cons; [exact prime_97|].
  apply Forall_cons; [exact prime_79|].
  apply Forall_nil.
Qed.
Lemma prime_9061163 : prime 9061163.
Proof.
  apply (pocklington _ 2 [5801]); [vm_compute; reflexivity|].
  apply Forall_cons; [exact prime_5801|].
  apply Forall_nil.
Qed.
Lemma prime_2566129871 : prime 2566129871.
Proof.
  apply (pocklington _ 2 [84163]); [vm_compute; reflexivity|].
  apply Forall_cons; [exact prime_84163|].
  apply Forall_nil.
Qed.
Lemma prime_5636460199499 : prime 5636460199499.
Proof.
  apply (pocklington _ 2 [9061163]); [vm_compute; reflexivity|].
  apply Forall_cons; [exact prime_9061163|].
  apply Forall_nil.
Qed.
Lemma prime_101456283590983 : prime 101456283590983.
Proof.
  apply (pocklington _ 2 [5636460199499]); [vm_compute; reflexivity|].
  apply Forall_cons; [exact prime_5636460199499|].
  apply Forall_nil.
Qed.
Lemma prime_417514796639753 : prime 417514796639753.
Proof.
  apply (pocklington _ 2 [8214737; 2473]); [vm_compute; reflexivity|].
  apply Forall_cons; [exact prime_8214737|].
  apply Forall_cons; [exact prime_2473|].
  apply Forall_nil.
Qed.
Lemma prime_4773264379806847 : prime 4773264379806847.
Proof.
  apply (pocklington _ 2 [363761; 34511]); [vm_compute; reflexivity|].
  apply Forall_cons; [exact prime_363761|].
  apply Forall_cons; [exact prime_34511|].
  apply Forall_nil.
Qed.
Lemma prime_66013261729388519804782124120027 : prime 66013261729388519804782124120027.
Proof.
  apply (pocklington _ 2 [4773264379806847; 6158099]); [vm_compute; reflexivity|].
  apply Forall_cons; [exact prime_4773264379806847|].
  apply Forall_cons; [exact prime_6158099|].
  apply Forall_nil.
Qed.
Lemma prime_18120927127286907576013935251791662753637 : prime 18120927127286907576013935251791662753637.
Proof.
  apply (pocklington _ 2 [101456283590983; 2566129871]); [vm_compute; reflexivity|].
  apply Forall_cons; [exact prime_101456283590983|].
  apply Forall_cons; [exact prime_2566129871|].
  apply Forall_nil.
Qed.
Lemma prime_125197554539772723432468576818475380947471091418362477724521 : prime 125197554539772723432468576818475380947471091418362477724521.
Proof.
  apply (pocklington _ 2 [18120927127286907576013935251791662753637]); [vm_compute; reflexivity|].
  apply Forall_cons; [exact prime_18120927127286907576013935251791662753637|].
  apply Forall_nil.
Qed.

(** sm2.go:84 and 87. *)
Definition sm2p : Z := 0xFFFFFFFEFFFFFFFFFFFFFFFFFFFFFFFFFFFFFFFF00000000FFFFFFFFFFFFFFFF.
Definition sm2n : Z := 0xFFFFFFFEFFFFFFFFFFFFFFFFFFFFFFFF7203DF6B21C6052B53BBF40939D54123.

Theorem sm2n_prime : prime sm2n.
Proof.
  apply (pocklington _ 2 [125197554539772723432468576818475380947471091418362477724521]); [vm_compute; reflexivity|].
  apply Forall_cons; [exact prime_125197554539772723432468576818475380947471091418362477724521|].
  apply Forall_nil.
Qed.
Theorem sm2p_prime : prime sm2p.
Proof.
  apply (pocklington _ 2 [66013261729388519804782124120027; 417514796639753]); [vm_compute; reflexivity|].
  apply Forall_cons; [exact prime_66013261729388519804782124120027|].
  apply Forall_cons; [exact prime_417514796639753|].
  apply Forall_nil.
Qed.
