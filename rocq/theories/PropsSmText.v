(** Property C121: the texts that the SM3 and SM4 packages produce (sm3/sm3.go:282-301, sm4/sm4.go:66-70). *)
From Coq Require Import ZArith List Lia Bool Ascii String.
From Verif Require Import GoBase Sm3Spec Sm3 Sm4.
Import ListNotations.
Open Scope Z_scope.
Open Scope string_scope.

(** * Model *)

(** The digit of a value below 16: 0-9, A-F. *)
Definition digit (v : Z) : ascii := match String.get (Z.to_nat v) "0123456789ABCDEF" with Some c => c | None => "?"%char end.
(** fmt %08X of a uint32 (fmt/format.go fmtInteger): digits are taken from the low end until the value is used up, then zeros up to
    width 8. Eight turns always suffice for a uint32. *)
Fixpoint hexLoop (width : nat) (v : Z) (acc : string) : string :=
  match width with O => acc | S m => hexLoop m (Z.shiftr v 4) (String (digit (Z.land v 15)) acc) end.
Definition fmt08X (v : Z) : string := hexLoop 8 v "".

(** (T << s) | (T >> (32 - s)) on uint32. Shifts by 32 give 0, as in Go. *)
Definition rotT (T s : Z) : Z := Z.lor (u32 (Z.shiftl T s)) (Z.shiftr T (u32 (32 - s))).

(** sm3.go:282-301: what is printed. T[j] is set just before it is read. *)
Definition PrintT : string :=
  "{" ++ for_loop 16 0 (fun j out => out ++ "0x" ++ fmt08X (rotT 0x79CC4519 (u32 j)) ++ ", ") "" ++
  for_loop 48 16 (fun j out => let n := Z.rem j 32 in out ++
     (if (j =? 63)%Z then "0x" ++ fmt08X (rotT 0x7A879D8A (u32 n)) ++ "}" ++ String "010"%char "" else "0x" ++ fmt08X (rotT 0x7A879D8A (u32 n)) ++ ", ")) "".

(** strconv.Itoa (formatBits, base 10): a minus sign, digits from the low end, no leading zeros. An int has at most 19 digits. *)
Fixpoint itoaLoop (fuel : nat) (v : Z) (acc : string) : string :=
  match fuel with
  | O => acc
  | S m => let acc' := String (digit (v mod 10)) acc in if (v <? 10)%Z then acc' else itoaLoop m (v / 10) acc'
  end.
Definition Itoa (n : Z) : string := if (n <? 0)%Z then String "-" (itoaLoop 20 (- n) "") else itoaLoop 20 n "".
(** sm4.go:68-70 and the texts of the other error (sm4.go:229, 248, 267, 285) *)
Definition Error (e : sm4err) : string :=
  match e with KeySizeError n => "sm4: invalid key size " ++ Itoa n | NotFullBlocks => "input not full blocks" end.

(** * Specification: reading digits *)
Definition val (c : ascii) : Z := let k := Z.of_nat (nat_of_ascii c) in if (k <=? 57)%Z then k - 48 else k - 55.
Fixpoint read (base : Z) (acc : Z) (s : string) : Z := match s with "" => acc | String c r => read base (acc * base + val c) r end.
Fixpoint slen (s : string) : Z := match s with "" => 0 | String _ r => 1 + slen r end.

Definition decimal_digits (s : string) : Prop := forall c, In c (list_ascii_of_string s) -> In c (list_ascii_of_string "0123456789").
Definition hex_digits (s : string) : Prop := forall c, In c (list_ascii_of_string s) -> In c (list_ascii_of_string "0123456789ABCDEF").

(** * Proofs *)
Lemma small16 : forall v, 0 <= v < 16 -> In v [0; 1; 2; 3; 4; 5; 6; 7; 8; 9; 10; 11; 12; 13; 14; 15].
Proof. intros v H. cbn [In]. lia. Qed.
Lemma digit_ok : forall v, 0 <= v < 16 -> val (digit v) = v /\ In (digit v) (list_ascii_of_string "0123456789ABCDEF").
Proof. intros v H. apply small16 in H. cbn [In] in H. repeat (destruct H as [<-|H]; [split; [reflexivity|cbn; tauto]|]). contradiction. Qed.
Lemma digit10 : forall v, 0 <= v < 10 -> In (digit v) (list_ascii_of_string "0123456789") /\ (v <> 0 -> digit v <> "0"%char).
Proof.
  intros v H. assert (I : In v [0; 1; 2; 3; 4; 5; 6; 7; 8; 9]) by (cbn [In]; lia). cbn [In] in I.
  repeat (destruct I as [<-|I]; [split; [cbn; tauto|intro N; first [exfalso; apply N; reflexivity|discriminate]]|]). contradiction.
Qed.
Lemma hexLoop_ok : forall w v acc, 0 <= v < 16 ^ Z.of_nat w ->
  read 16 0 (hexLoop w v acc) = read 16 v acc /\ slen (hexLoop w v acc) = Z.of_nat w + slen acc /\ (hex_digits acc -> hex_digits (hexLoop w v acc)).
Proof.
  induction w as [|w IH]; intros v acc H.
  - cbn in H. assert (v = 0) by lia. subst v. cbn [hexLoop]. split; [reflexivity|]. split; [reflexivity|tauto].
  - rewrite Nat2Z.inj_succ, Z.pow_succ_r in H by lia. cbn [hexLoop]. rewrite Z.shiftr_div_pow2 by lia. change (2 ^ 4) with 16.
    change 15 with (Z.ones 4). rewrite Z.land_ones by lia. change (2 ^ 4) with 16. pose proof (Z.mod_pos_bound v 16 ltac:(lia)) as M. pose proof (Z.div_mod v 16 ltac:(lia)) as DM.
    assert (0 <= v / 16 < 16 ^ Z.of_nat w) by (split; [apply Z.div_pos; lia|apply Z.div_lt_upper_bound; lia]).
    destruct (IH (v / 16) (String (digit (v mod 16)) acc) H0) as (R1 & R2 & R3). destruct (digit_ok (v mod 16) M) as [V I].
    split; [rewrite R1; cbn [read]; rewrite V; f_equal; lia|]. split; [rewrite R2; cbn [slen]; lia|]. intro HA. apply R3. intros c [<-|Hc]; [exact I|apply HA, Hc].
Qed.
Lemma itoaLoop_ok : forall f v acc, (0 < f)%nat -> 0 <= v < 10 ^ Z.of_nat f ->
  read 10 0 (itoaLoop f v acc) = read 10 v acc /\ (decimal_digits acc -> decimal_digits (itoaLoop f v acc)) /\ 1 + slen acc <= slen (itoaLoop f v acc) /\
  (v <> 0 -> forall r, itoaLoop f v acc <> String "0" r).
Proof.
  induction f as [|f IH]; intros v acc P H; [lia|]. rewrite Nat2Z.inj_succ, Z.pow_succ_r in H by lia. cbn [itoaLoop].
  pose proof (Z.mod_pos_bound v 10 ltac:(lia)) as M. pose proof (Z.div_mod v 10 ltac:(lia)) as DM. destruct (digit_ok (v mod 10) ltac:(lia)) as [V _].
  destruct (digit10 (v mod 10) M) as [I NZ]. destruct (Z.ltb_spec v 10) as [L|L].
  - rewrite Z.mod_small in * by lia. cbn [read slen]. rewrite V. split; [f_equal; lia|]. split; [intros HA c [<-|Hc]; [exact I|apply HA, Hc]|]. split; [lia|].
    intros N r Q. injection Q as Q _. exact (NZ N Q).
  - assert (F : (0 < f)%nat) by (destruct f; [cbn in H; lia|lia]).
    destruct (IH (v / 10) (String (digit (v mod 10)) acc) F) as (R1 & R2 & R3 & R4); [split; [apply Z.div_pos; lia|apply Z.div_lt_upper_bound; lia]|].
    split; [rewrite R1; cbn [read]; rewrite V; f_equal; lia|]. split; [intro HA; apply R2; intros c [<-|Hc]; [exact I|apply HA, Hc]|]. cbn [slen] in R3. split; [lia|].
    intro N. apply R4. pose proof (Z.div_le_lower_bound v 10 1 ltac:(lia) ltac:(lia)). lia.
Qed.

(** A decimal numeral: digits only, at least one, none leading zero unless it is 0 itself. *)
Definition numeral (n : Z) (s : string) : Prop :=
  decimal_digits s /\ s <> "" /\ read 10 0 s = n /\ (n <> 0 -> forall r, s <> String "0" r).
Lemma Itoa_ok : forall n, 0 <= n < 2 ^ 63 -> numeral n (Itoa n).
Proof.
  intros n H. unfold Itoa. rewrite (proj2 (Z.ltb_ge n 0)) by lia.
  destruct (itoaLoop_ok 20 n "" ltac:(lia)) as (R1 & R2 & R3 & R4); [assert (2 ^ 63 < 10 ^ Z.of_nat 20) by reflexivity; lia|].
  split; [apply R2; intros c []|]. split; [intro E; rewrite E in R3; cbn in R3; lia|]. split; [rewrite R1; reflexivity|exact R4].
Qed.

(** The error of a key of another length than 16 names that length in decimal. *)
Theorem C121_key_size : forall key, zlen key <> 16 -> zlen key < 2 ^ 63 ->
  exists e s, NewCipher key = Err e /\ Error e = "sm4: invalid key size " ++ s /\ numeral (zlen key) s.
Proof.
  intros key N L. exists (KeySizeError (zlen key)), (Itoa (zlen key)). unfold NewCipher. change KeySize with 16. rewrite (proj2 (Z.eqb_neq _ _) N). cbn [negb].
  split; [reflexivity|]. split; [reflexivity|]. apply Itoa_ok. unfold zlen in *. lia.
Qed.
(** So two keys of wrong lengths get the same text exactly if they are equally long. *)
Theorem C121_key_size_inj : forall k1 k2 e1 e2, zlen k1 < 2 ^ 63 -> zlen k2 < 2 ^ 63 -> NewCipher k1 = Err e1 -> NewCipher k2 = Err e2 ->
  (Error e1 = Error e2 <-> zlen k1 = zlen k2).
Proof.
  intros k1 k2 e1 e2 L1 L2 H1 H2. unfold NewCipher in H1, H2. destruct (negb (zlen k1 =? KeySize)%Z); [|discriminate H1]. destruct (negb (zlen k2 =? KeySize)%Z); [|discriminate H2].
  injection H1 as <-. injection H2 as <-. split; [|intros ->; reflexivity]. cbn [Error]. intro E.
  assert (Q : Itoa (zlen k1) = Itoa (zlen k2)). { cbn in E. repeat (injection E as E). exact E. }
  destruct (Itoa_ok (zlen k1)) as (_ & _ & R1 & _); [unfold zlen; unfold zlen in L1; lia|]. destruct (Itoa_ok (zlen k2)) as (_ & _ & R2 & _); [unfold zlen; unfold zlen in L2; lia|].
  rewrite <- R1, <- R2, Q. reflexivity.
Qed.

(** Eight digits that read as the value. *)
Theorem C121_hex : forall v, 0 <= v < 2 ^ 32 -> read 16 0 (fmt08X v) = v /\ slen (fmt08X v) = 8 /\ hex_digits (fmt08X v).
Proof.
  intros v H. destruct (hexLoop_ok 8 v "" H) as (R1 & R2 & R3). split; [exact R1|]. split; [exact R2|]. apply R3. intros c [].
Qed.
(** PrintT prints the 64 rotated constants of the standard, which are the ones that the compression function adds. *)
Theorem C121_constants : exists texts : list string, List.length texts = 64%nat /\
  PrintT = "{" ++ String.concat ", " (map (fun h => "0x" ++ h) texts) ++ "}" ++ String "010"%char "" /\
  forall j, (j < 64)%nat -> let h := nth j texts "" in
    slen h = 8 /\ hex_digits h /\ read 16 0 h = rotl (Z.of_nat j mod 32) (T (Z.of_nat j)) /\ read 16 0 h = nth j gT 0.
Proof.
  exists (map fmt08X gT). split; [reflexivity|]. split; [vm_compute; reflexivity|]. intros j Hj h.
  assert (E : h = fmt08X (nth j gT 0)) by (unfold h; rewrite (nth_indep _ "" (fmt08X 0)) by (rewrite map_length; exact Hj); apply map_nth).
  assert (A : forall k, (k < 64)%nat -> 0 <= nth k gT 0 < 2 ^ 32 /\ nth k gT 0 = rotl (Z.of_nat k mod 32) (T (Z.of_nat k))).
  { assert (F : forallb (fun k => (0 <=? nth k gT 0) && (nth k gT 0 <? 2 ^ 32) && (nth k gT 0 =? rotl (Z.of_nat k mod 32) (T (Z.of_nat k))))%Z (seq 0 64) = true) by (vm_compute; reflexivity).
    intros k Hk. rewrite forallb_forall in F. specialize (F k ltac:(apply in_seq; lia)). lia. }
  destruct (A j Hj) as [R Q]. destruct (C121_hex _ R) as (H1 & H2 & H3). rewrite E. split; [exact H2|]. split; [exact H3|]. rewrite H1. split; [exact Q|reflexivity].
Qed.

(** * Examples *)
Example C121_ex_key : Error (KeySizeError (zlen (repeat 0 24))) = "sm4: invalid key size 24" /\ Error (KeySizeError 0) = "sm4: invalid key size 0" /\ zlen (repeat 0 24) <> 16.
Proof. split; [reflexivity|]. split; [reflexivity|]. discriminate. Qed.
Example C121_ex_print : substring 0 26 PrintT = "{0x79CC4519, 0xF3988A32, 0" /\ String.length PrintT = 769%nat.
Proof. split; vm_compute; reflexivity. Qed.
