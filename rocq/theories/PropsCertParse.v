(** What parsing a certificate establishes: how the extensions of a list combine into the fields of the
    certificate (C88), which bytes end up where and which play no part (C87). *)
From Coq Require Import ZArith List Lia Bool String Permutation.
From Verif Require Import GoBase BeMin CbString CbStringProofs PropsCbString CbBuilder CbBuilderProofs PropsCbBuilder CbAsn1Proofs GoAsn1 GoAsn1Proofs.
From Verif Require Import FpField WeiGroup Sm2Group GoElliptic Sm2Spec Sm2 Sm2Proofs Sm2Proofs2 PropsSm2 Sm2Der PropsSm2Der GoText GoPkix CertText PropsCertText Cert CertRt PropsCertExt PropsCertNames PropsCertSan PropsCertBuild PropsCertTime PropsCertDN CertRt2 PropsCert PropsCertReq PropsCertSafe.
Import ListNotations.
Open Scope Z_scope.

(** * C88: how extensions combine *)

Section Env.
Variable E : netEnv.

(** What an extension gives when it is the only one: the fields of the certificate and the unhandled
    extensions. *)
Definition alone (e : Extension) (x : certFields E * list (list Z)) : Prop := parseExtensions E [e] (zeroFields E) [] = Ret (OK x).

(** The value that the last extension with identifier [id] gives to a field, and [d] if there is none.
    [l] has each extension with the fields it gives. *)
Fixpoint last_value {A} (id : list Z) (g : certFields E -> A) (d : A) (l : list (Extension * certFields E)) : A :=
  match l with
  | [] => d
  | (e, f) :: r => last_value id g (if list_eq_dec Z.eq_dec (e_id e) id then g f else d) r
  end.
Definition all_values {A} (g : certFields E -> list A) (l : list (Extension * certFields E)) : list A := List.concat (map (fun x => g (snd x)) l).

(** The identifiers (RFC 5280, section 4.2). *)
Definition id_ce (n : Z) : list Z := [2; 5; 29; n].
Definition id_pe_aia : list Z := [1; 3; 6; 1; 5; 5; 7; 1; 1].

(** Ten fields take the value of the last extension of their kind; five collect the values of all. *)
Definition combined (f : certFields E) (l : list (Extension * certFields E)) : certFields E :=
  mkFields E
    (last_value (id_ce 15) (f_KeyUsage E) (f_KeyUsage E f) l)
    (f_ExtKeyUsage E f ++ all_values (f_ExtKeyUsage E) l)
    (f_UnknownExtKeyUsage E f ++ all_values (f_UnknownExtKeyUsage E) l)
    (last_value (id_ce 19) (f_BasicConstraintsValid E) (f_BasicConstraintsValid E f) l)
    (last_value (id_ce 19) (f_IsCA E) (f_IsCA E f) l)
    (last_value (id_ce 19) (f_MaxPathLen E) (f_MaxPathLen E f) l)
    (last_value (id_ce 19) (f_MaxPathLenZero E) (f_MaxPathLenZero E f) l)
    (last_value (id_ce 14) (f_SubjectKeyId E) (f_SubjectKeyId E f) l)
    (last_value (id_ce 35) (f_AuthorityKeyId E) (f_AuthorityKeyId E f) l)
    (f_OCSPServer E f ++ all_values (f_OCSPServer E) l)
    (f_IssuingCertificateURL E f ++ all_values (f_IssuingCertificateURL E) l)
    (last_value (id_ce 17) (f_SAN E) (f_SAN E f) l)
    (last_value (id_ce 30) (f_ConstraintsCritical E) (f_ConstraintsCritical E f) l)
    (last_value (id_ce 30) (f_Permitted E) (f_Permitted E f) l)
    (last_value (id_ce 30) (f_Excluded E) (f_Excluded E f) l)
    (f_CRLDistributionPoints E f ++ all_values (f_CRLDistributionPoints E) l)
    (last_value (id_ce 32) (f_PolicyIdentifiers E) (f_PolicyIdentifiers E f) l).

Definition over {A B} (h : A -> B) (x : go (res A)) : go (res B) := gbind x (fun a => Ret (OK (h a))).

(** The number of an identifier 2.5.29.n. *)
Definition ce_number (id : list Z) : option Z :=
  match id with
  | [a; b; c; n] => if (a =? 2) && (b =? 5) && (c =? 29) then Some n else None
  | _ => None
  end.
Lemma ce_some : forall id n, ce_number id = Some n -> id = id_ce n.
Proof.
  intros id n H. unfold ce_number in H. destruct id as [|a [|b [|c [|m [|]]]]]; try discriminate H.
  destruct (_ && _) eqn:EQ; [|discriminate H]. injection H as <-. rewrite !andb_true_iff, !Z.eqb_eq in EQ. destruct EQ as [[-> ->] ->]. reflexivity.
Qed.
Lemma ce_other : forall id k, ce_number id <> Some k -> id <> id_ce k.
Proof. intros id k H ->. apply H. reflexivity. Qed.

Lemma ce_dec : forall T n k (a b : T), (if list_eq_dec Z.eq_dec (id_ce n) (id_ce k) then a else b) = if n =? k then a else b.
Proof.
  intros T n k a b. destruct (list_eq_dec Z.eq_dec (id_ce n) (id_ce k)) as [Q|Q].
  - injection Q as ->. rewrite Z.eqb_refl. reflexivity.
  - destruct (Z.eqb_spec n k) as [->|N]; [exfalso; apply Q; reflexivity|reflexivity].
Qed.
Lemma ce_no_dec : forall T id k (a b : T), ce_number id = None -> (if list_eq_dec Z.eq_dec id (id_ce k) then a else b) = b.
Proof.
  intros T id k a b H. destruct (list_eq_dec Z.eq_dec id (id_ce k)) as [->|Q]; [discriminate H|reflexivity].
Qed.
Lemma all_one : forall A (g : certFields E -> list A) e f, all_values g [(e, f)] = g f.
Proof. intros. unfold all_values. cbn [map List.concat snd]. apply app_nil_r. Qed.

(** Nothing but the field of its kind is changed. *)
Lemma step_alone : forall e f, parseExtension E e f = over (fun x => (combined f [(e, fst x)], snd x)) (parseExtension E e (zeroFields E)).
Proof.
  intros e f. unfold parseExtension. fold (ce_number (e_id e)).
  destruct (ce_number (e_id e)) as [n|] eqn:EN.
  - apply ce_some in EN.
    Ltac fin EN f := unfold over; cbn [gbind bind fst snd]; unfold combined; cbn [last_value]; rewrite EN, !ce_dec, !all_one;
      destruct f; cbn; rewrite ?app_nil_r; reflexivity.
    Ltac kind n k EN f tac := let H := fresh in destruct (Z.eqb_spec n k) as [H|?]; [subst n; tac; fin EN f|].
    kind n 15 EN f ltac:(destruct (unmarshalAll uBits zeroBits (e_value e)) as [b|m]; [|reflexivity]; cbn [gbind]; destruct (usageLoop 9 0 b 0) as [u|k]; [|reflexivity]).
    kind n 19 EN f ltac:(destruct (unmarshalAll uBasicConstraints (false, 0) (e_value e)) as [[b c]|m]; [|reflexivity]).
    kind n 17 EN f ltac:(destruct (parseSANExtension E (e_value e)) as [[b|m]|k]; [|reflexivity|reflexivity]).
    kind n 30 EN f ltac:(destruct (parseNameConstraintsExtension E (e_value e)) as [[[[b c] d]|m]|k]; [|reflexivity|reflexivity]).
    kind n 31 EN f ltac:(destruct (unmarshalAll (uList uDP [] false) [] (e_value e)) as [b|m]; [|reflexivity]).
    kind n 35 EN f ltac:(destruct (unmarshalAll uAuthKeyId [] (e_value e)) as [b|m]; [|reflexivity]).
    kind n 37 EN f ltac:(destruct (unmarshalAll (uList uOID [] false) [] (e_value e)) as [b|m]; [|reflexivity]).
    kind n 14 EN f ltac:(destruct (unmarshalAll uOctets None (e_value e)) as [b|m]; [|reflexivity]).
    kind n 32 EN f ltac:(destruct (unmarshalAll (uList uPolicy [] false) [] (e_value e)) as [b|m]; [|reflexivity]).
    unfold over; cbn [gbind bind fst snd]; unfold combined; cbn [last_value]; rewrite EN, !ce_dec, !all_one.
    rewrite !(fun k => proj2 (Z.eqb_neq n k)) by assumption. destruct f; cbn; rewrite ?app_nil_r; reflexivity.
  - destruct (oidEqual (e_id e) oidExtensionAuthorityInfoAccess).
    + destruct (unmarshalAll (uList uAIA ([], zeroRaw) false) [] (e_value e)) as [b|m]; [|reflexivity].
      unfold over; cbn [gbind bind fst snd]; unfold combined; cbn [last_value]; rewrite !(ce_no_dec _ _ _ _ _ EN), !all_one;
      destruct f; cbn; rewrite ?app_nil_r; reflexivity.
    + unfold over; cbn [gbind bind fst snd]; unfold combined; cbn [last_value]; rewrite !(ce_no_dec _ _ _ _ _ EN), !all_one;
      destruct f; cbn; rewrite ?app_nil_r; reflexivity.
Qed.

Lemma alone_iff : forall e f1 u, alone e (f1, u) <->
  exists b, parseExtension E e (zeroFields E) = Ret (OK (f1, b)) /\ u = if e_critical e && b then [e_id e] else [].
Proof.
  intros e f1 u. unfold alone. cbn [parseExtensions]. destruct (parseExtension E e (zeroFields E)) as [[[f b]|m]|k]; cbn [gbind].
  - cbn [parseExtensions app]. split.
    + intros H. apply ret_inj in H. apply ok_inj in H. injection H as <- <-. exists b. split; reflexivity.
    + intros (b' & H & ->). apply ret_inj in H. apply ok_inj in H. injection H as <- <-. reflexivity.
  - split; [intros H; apply ret_inj in H; discriminate H|intros (b & H & _); apply ret_inj in H; discriminate H].
  - split; [discriminate|intros (b & H & _); discriminate H].
Qed.
Lemma last_app : forall A id (g : certFields E -> A) l r d, last_value id g d (l ++ r) = last_value id g (last_value id g d l) r.
Proof. intros A id g l. induction l as [|[e f] l IH]; intros r d; [reflexivity|]. cbn [app last_value]. apply IH. Qed.
Lemma combined_cons : forall f e f1 l, combined (combined f [(e, f1)]) l = combined f ((e, f1) :: l).
Proof.
  intros f e f1 l. unfold combined at 1 3. cbn [last_value]. unfold combined.
  cbn [f_KeyUsage f_ExtKeyUsage f_UnknownExtKeyUsage f_BasicConstraintsValid f_IsCA f_MaxPathLen f_MaxPathLenZero f_SubjectKeyId f_AuthorityKeyId
    f_OCSPServer f_IssuingCertificateURL f_SAN f_ConstraintsCritical f_Permitted f_Excluded f_CRLDistributionPoints f_PolicyIdentifiers last_value].
  rewrite !all_one. unfold all_values. cbn [map List.concat snd]. rewrite <- !app_assoc. reflexivity.
Qed.
Lemma combined_nil : forall f, combined f [] = f.
Proof. intros f. unfold combined, all_values. cbn [last_value map List.concat]. rewrite !app_nil_r. destruct f; reflexivity. Qed.
Lemma loop_combine : forall l f u f' u', parseExtensions E l f u = Ret (OK (f', u')) <->
  exists xs, Forall2 alone l xs /\ u' = u ++ List.concat (map snd xs) /\ f' = combined f (List.combine l (map fst xs)).
Proof.
  induction l as [|e l IH]; intros f u f' u'; cbn [parseExtensions].
  - split.
    + intros H. apply ret_inj in H. apply ok_inj in H. injection H as <- <-. exists []. split; [constructor|]. cbn [map List.concat List.combine].
      rewrite app_nil_r, combined_nil. split; reflexivity.
    + intros (xs & HF & -> & ->). inversion HF; subst. cbn [map List.concat List.combine]. rewrite app_nil_r, combined_nil. reflexivity.
  - rewrite step_alone. unfold over. destruct (parseExtension E e (zeroFields E)) as [[[f1 b]|m]|k] eqn:EP; cbn [gbind fst snd].
    + rewrite IH. split.
      * intros (xs & HF & -> & ->). exists ((f1, if e_critical e && b then [e_id e] else []) :: xs). split.
        { constructor; [|exact HF]. apply alone_iff. exists b. split; [exact EP|reflexivity]. }
        cbn [map fst snd List.concat List.combine]. rewrite combined_cons. split; [|reflexivity].
        destruct (e_critical e && b); [rewrite <- app_assoc|]; reflexivity.
      * intros (xs & HF & -> & ->). inversion HF as [|? [g w] ? xs' HA HF']; subst. apply alone_iff in HA. destruct HA as (b' & HA & ->).
        rewrite EP in HA. apply ret_inj in HA. apply ok_inj in HA. injection HA as <- <-.
        exists xs'. split; [exact HF'|]. cbn [map fst snd List.concat List.combine]. rewrite combined_cons. split; [|reflexivity].
        destruct (e_critical e && b); [rewrite <- app_assoc|]; reflexivity.
    + split; [intros H; apply ret_inj in H; discriminate H|]. intros (xs & HF & _). inversion HF as [|? [g w] ? xs' HA HF']; subst.
      apply alone_iff in HA. destruct HA as (b & HA & _). rewrite EP in HA. apply ret_inj in HA. discriminate HA.
    + split; [discriminate|]. intros (xs & HF & _). inversion HF as [|? [g w] ? xs' HA HF']; subst.
      apply alone_iff in HA. destruct HA as (b & HA & _). rewrite EP in HA. discriminate HA.
Qed.
(** A list of extensions is read exactly if each of them is read alone, and the result is put together
    from the results for each. *)
Theorem C88_combine : forall l f u, parseExtensions E l (zeroFields E) [] = Ret (OK (f, u)) <->
  exists xs, Forall2 alone l xs /\ u = List.concat (map snd xs) /\ f = combined (zeroFields E) (List.combine l (map fst xs)).
Proof. intros l f u. apply (loop_combine l (zeroFields E) [] f u). Qed.
(** That is where the fields of a certificate come from. *)
Theorem C88_certificate : forall der c, ParseCertificate E der = Ret (OK c) ->
  exists xs, Forall2 alone (c_Extensions E c) xs /\ c_Unhandled E c = List.concat (map snd xs) /\
    c_fields E c = combined (zeroFields E) (List.combine (c_Extensions E c) (map fst xs)).
Proof.
  intros der c H. unfold ParseCertificate in H. apply gbind_ok in H. destruct H as ([cert rest] & _ & H). destruct (negb _); [discriminate H|].
  unfold parseCertificate in H. destruct (negb _); [discriminate H|]. destruct (negb _); [discriminate H|].
  apply gbind_ok in H. destruct H as (pub & _ & H). apply gbind_ok in H. destruct H as (s & _ & H). apply gbind_ok in H. destruct H as (i & _ & H).
  apply gbind_ok in H. destruct H as ([f u] & HX & H). apply ret_inj in H. apply ok_inj in H. subst c. cbn [c_Extensions c_Unhandled c_fields].
  apply C88_combine. exact HX.
Qed.

(** An extension alone sets the fields of its kind and leaves all others at zero. *)
Definition only_kind (id : list Z) (f : certFields E) : Prop :=
  (id <> id_ce 15 -> f_KeyUsage E f = 0) /\
  (id <> id_ce 37 -> f_ExtKeyUsage E f = [] /\ f_UnknownExtKeyUsage E f = []) /\
  (id <> id_ce 19 -> f_BasicConstraintsValid E f = false /\ f_IsCA E f = false /\ f_MaxPathLen E f = 0 /\ f_MaxPathLenZero E f = false) /\
  (id <> id_ce 14 -> f_SubjectKeyId E f = []) /\
  (id <> id_ce 35 -> f_AuthorityKeyId E f = []) /\
  (id <> id_pe_aia -> f_OCSPServer E f = [] /\ f_IssuingCertificateURL E f = []) /\
  (id <> id_ce 17 -> f_SAN E f = mkAlt E [] [] [] []) /\
  (id <> id_ce 30 -> f_ConstraintsCritical E f = false /\ f_Permitted E f = mkNC [] [] [] [] /\ f_Excluded E f = mkNC [] [] [] []) /\
  (id <> id_ce 31 -> f_CRLDistributionPoints E f = []) /\
  (id <> id_ce 32 -> f_PolicyIdentifiers E f = []).
Theorem C88_only_kind : forall e f u, alone e (f, u) -> only_kind (e_id e) f.
Proof.
  intros e f u H. apply alone_iff in H. destruct H as (b & H & _). unfold parseExtension in H. fold (ce_number (e_id e)) in H.
  Ltac fin2 H EN := apply ret_inj in H; apply ok_inj in H; injection H as <- <-; unfold only_kind; rewrite ?EN;
    repeat match goal with |- _ /\ _ => split end; intros Q; try (exfalso; apply Q; reflexivity); repeat split; reflexivity.
  destruct (ce_number (e_id e)) as [n|] eqn:EN.
  - apply ce_some in EN.
    destruct (Z.eqb_spec n 15) as [->|?].
    { apply gbind_ok in H. destruct H as (x & _ & H). destruct (usageLoop 9 0 x 0); [|discriminate H]. cbn [bind] in H. fin2 H EN. }
    destruct (Z.eqb_spec n 19) as [->|?]. { apply gbind_ok in H. destruct H as ([x y] & _ & H). fin2 H EN. }
    destruct (Z.eqb_spec n 17) as [->|?]. { apply gbind_ok in H. destruct H as (x & _ & H). fin2 H EN. }
    destruct (Z.eqb_spec n 30) as [->|?]. { apply gbind_ok in H. destruct H as ([[x y] z] & _ & H). fin2 H EN. }
    destruct (Z.eqb_spec n 31) as [->|?]. { apply gbind_ok in H. destruct H as (x & _ & H). fin2 H EN. }
    destruct (Z.eqb_spec n 35) as [->|?]. { apply gbind_ok in H. destruct H as (x & _ & H). fin2 H EN. }
    destruct (Z.eqb_spec n 37) as [->|?]. { apply gbind_ok in H. destruct H as (x & _ & H). fin2 H EN. }
    destruct (Z.eqb_spec n 14) as [->|?]. { apply gbind_ok in H. destruct H as (x & _ & H). fin2 H EN. }
    destruct (Z.eqb_spec n 32) as [->|?]. { apply gbind_ok in H. destruct H as (x & _ & H). fin2 H EN. }
    fin2 H EN.
  - destruct (oidEqual (e_id e) oidExtensionAuthorityInfoAccess) eqn:EA.
    + apply oidEqual_eq in EA. apply gbind_ok in H. destruct H as (x & _ & H). fin2 H EA.
    + clear EN EA. apply ret_inj in H. apply ok_inj in H. injection H as <- <-. unfold only_kind.
      repeat match goal with |- _ /\ _ => split end; intros Q; repeat split; reflexivity.
Qed.
(** The order of extensions with different identifiers plays no part, except in the list of unhandled
    ones. *)
Lemma last_swap : forall A id (g : certFields E -> A) d a e1 f1 e2 f2 b, e_id e1 <> e_id e2 ->
  last_value id g d (a ++ (e1, f1) :: (e2, f2) :: b) = last_value id g d (a ++ (e2, f2) :: (e1, f1) :: b).
Proof.
  intros A id g d a e1 f1 e2 f2 b N. rewrite !last_app. cbn [last_value]. f_equal.
  destruct (list_eq_dec Z.eq_dec (e_id e1) id), (list_eq_dec Z.eq_dec (e_id e2) id); congruence.
Qed.
Lemma all_app : forall A (g : certFields E -> list A) a b, all_values g (a ++ b) = all_values g a ++ all_values g b.
Proof. intros. unfold all_values. rewrite map_app, concat_app. reflexivity. Qed.
Lemma all_swap : forall A (g : certFields E -> list A) a e1 f1 e2 f2 b, g f1 = [] \/ g f2 = [] ->
  all_values g (a ++ (e1, f1) :: (e2, f2) :: b) = all_values g (a ++ (e2, f2) :: (e1, f1) :: b).
Proof.
  intros A g a e1 f1 e2 f2 b H. rewrite !all_app. f_equal. unfold all_values. cbn [map List.concat snd].
  destruct H as [H|H]; rewrite H; reflexivity.
Qed.
Lemma forall2_length : forall A B (R : A -> B -> Prop) l m, Forall2 R l m -> List.length l = List.length m.
Proof. intros A B R l m H. induction H; cbn [List.length]; congruence. Qed.
Lemma combine_app : forall A B (a b : list A) (x y : list B), List.length a = List.length x -> List.combine (a ++ b) (x ++ y) = List.combine a x ++ List.combine b y.
Proof.
  intros A B a. induction a as [|p a IH]; intros b [|q x] y H; try discriminate H; [reflexivity|]. cbn [app List.combine]. rewrite IH; [reflexivity|].
  cbn [List.length] in H. lia.
Qed.
Theorem C88_order : forall a e1 e2 b f u, e_id e1 <> e_id e2 -> parseExtensions E (a ++ e1 :: e2 :: b) (zeroFields E) [] = Ret (OK (f, u)) ->
  exists u', parseExtensions E (a ++ e2 :: e1 :: b) (zeroFields E) [] = Ret (OK (f, u')) /\ Permutation u u'.
Proof.
  intros a e1 e2 b f u N H. apply C88_combine in H. destruct H as (xs & HF & -> & ->).
  apply Forall2_app_inv_l in HF. destruct HF as (xa & xb & HA & HB & ->). inversion HB as [|? [f1 u1] ? xb1 H1 HB1]; subst.
  inversion HB1 as [|? [f2 u2] ? xb2 H2 HB2]; subst.
  exists (List.concat (map snd (xa ++ (f2, u2) :: (f1, u1) :: xb2))). split.
  - apply C88_combine. exists (xa ++ (f2, u2) :: (f1, u1) :: xb2). split; [apply Forall2_app; [exact HA|]; repeat (constructor; try assumption)|].
    split; [reflexivity|]. rewrite !map_app. cbn [map fst].
    rewrite !combine_app by (rewrite map_length; exact (forall2_length _ _ _ _ _ HA)). cbn [List.combine].
    pose proof (C88_only_kind _ _ _ H1) as (_ & A1 & _ & _ & _ & B1 & _ & _ & C1 & _).
    pose proof (C88_only_kind _ _ _ H2) as (_ & A2 & _ & _ & _ & B2 & _ & _ & C2 & _).
    assert (G1 : f_ExtKeyUsage E f1 = [] \/ f_ExtKeyUsage E f2 = []).
    { destruct (list_eq_dec Z.eq_dec (e_id e1) (id_ce 37)) as [Q|Q]; [right; apply A2; congruence|left; apply A1; exact Q]. }
    assert (G2 : f_UnknownExtKeyUsage E f1 = [] \/ f_UnknownExtKeyUsage E f2 = []).
    { destruct (list_eq_dec Z.eq_dec (e_id e1) (id_ce 37)) as [Q|Q]; [right; apply A2; congruence|left; apply A1; exact Q]. }
    assert (G3 : f_OCSPServer E f1 = [] \/ f_OCSPServer E f2 = []).
    { destruct (list_eq_dec Z.eq_dec (e_id e1) id_pe_aia) as [Q|Q]; [right; apply B2; congruence|left; apply B1; exact Q]. }
    assert (G4 : f_IssuingCertificateURL E f1 = [] \/ f_IssuingCertificateURL E f2 = []).
    { destruct (list_eq_dec Z.eq_dec (e_id e1) id_pe_aia) as [Q|Q]; [right; apply B2; congruence|left; apply B1; exact Q]. }
    assert (G5 : f_CRLDistributionPoints E f1 = [] \/ f_CRLDistributionPoints E f2 = []).
    { destruct (list_eq_dec Z.eq_dec (e_id e1) (id_ce 31)) as [Q|Q]; [right; apply C2; congruence|left; apply C1; exact Q]. }
    set (p := List.combine a _). set (q := List.combine b _). clearbody p q. unfold combined.
    rewrite !(fun A id (g : certFields E -> A) d => last_swap A id g d p e1 f1 e2 f2 q N).
    rewrite (all_swap _ _ p e1 f1 e2 f2 q G1), (all_swap _ _ p e1 f1 e2 f2 q G2), (all_swap _ _ p e1 f1 e2 f2 q G3),
      (all_swap _ _ p e1 f1 e2 f2 q G4), (all_swap _ _ p e1 f1 e2 f2 q G5). reflexivity.
  - rewrite !map_app, !concat_app. apply Permutation_app_head. cbn [map snd List.concat]. rewrite !app_assoc. apply Permutation_app_tail. apply Permutation_app_comm.
Qed.

(** Which extensions are listed as unhandled: critical ones of a kind that is not known, and critical
    alternative names without a single name, and critical name constraints with one that is not
    understood. *)
Theorem C88_unhandled : forall e f u, alone e (f, u) -> (u = [] \/ u = [e_id e]) /\
  (u = [e_id e] -> e_critical e = true) /\
  (~ In (e_id e) (id_pe_aia :: map id_ce [14; 15; 17; 19; 30; 31; 32; 35; 37]) -> f = zeroFields E /\ (u = [e_id e] <-> e_critical e = true)) /\
  (In (e_id e) (id_pe_aia :: map id_ce [14; 15; 19; 31; 32; 35; 37]) -> u = []) /\
  (e_id e = id_ce 17 -> (u = [e_id e] <-> e_critical e = true /\ f_SAN E f = mkAlt E [] [] [] [])).
Proof.
  intros e f u H. apply alone_iff in H. destruct H as (b & H & ->).
  split; [destruct (e_critical e && b); [right|left]; reflexivity|].
  split; [destruct (e_critical e); [reflexivity|discriminate]|].
  unfold parseExtension in H. fold (ce_number (e_id e)) in H.
  assert (NE : [] <> [e_id e]) by discriminate.
  Ltac fin3 H EN := apply ret_inj in H; apply ok_inj in H; injection H as <- <-; rewrite ?EN, ?andb_false_r;
    split; [intros Q; exfalso; apply Q; cbn; tauto|split; [reflexivity|intros Q; discriminate Q]].
  destruct (ce_number (e_id e)) as [n|] eqn:EN.
  - apply ce_some in EN.
    destruct (Z.eqb_spec n 15) as [->|?].
    { apply gbind_ok in H. destruct H as (x & _ & H). destruct (usageLoop 9 0 x 0); [|discriminate H]. cbn [bind] in H. fin3 H EN. }
    destruct (Z.eqb_spec n 19) as [->|?]. { apply gbind_ok in H. destruct H as ([x y] & _ & H). fin3 H EN. }
    destruct (Z.eqb_spec n 17) as [->|?].
    { apply gbind_ok in H. destruct H as (x & _ & H). apply ret_inj in H. apply ok_inj in H. injection H as <- <-. cbn [f_SAN set_SAN].
      split; [intros Q; exfalso; apply Q; rewrite EN; cbn; tauto|].
      split. { rewrite EN. intros Q. cbn in Q. repeat (destruct Q as [Q|Q]; [discriminate Q|]). contradiction. }
      intros _. destruct (e_critical e); cbn [andb]; [|split; [discriminate|intros [Q _]; discriminate Q]].
      unfold altEmpty. destruct x as [d m i w]. cbn [an_dns an_emails an_ips an_uris].
      destruct d; [|split; [discriminate|intros [_ Q]; discriminate Q]]. destruct m; [|split; [discriminate|intros [_ Q]; discriminate Q]].
      destruct i; [|split; [discriminate|intros [_ Q]; discriminate Q]]. destruct w; [|split; [discriminate|intros [_ Q]; discriminate Q]].
      split; [intros _; split; reflexivity|reflexivity]. }
    destruct (Z.eqb_spec n 30) as [->|?].
    { rewrite EN. split; [intros Q; exfalso; apply Q; cbn; tauto|].
      split; [intros Q; cbn in Q; repeat (destruct Q as [Q|Q]; [discriminate Q|]); contradiction|discriminate]. }
    destruct (Z.eqb_spec n 31) as [->|?]. { apply gbind_ok in H. destruct H as (x & _ & H). fin3 H EN. }
    destruct (Z.eqb_spec n 35) as [->|?]. { apply gbind_ok in H. destruct H as (x & _ & H). fin3 H EN. }
    destruct (Z.eqb_spec n 37) as [->|?]. { apply gbind_ok in H. destruct H as (x & _ & H). fin3 H EN. }
    destruct (Z.eqb_spec n 14) as [->|?]. { apply gbind_ok in H. destruct H as (x & _ & H). fin3 H EN. }
    destruct (Z.eqb_spec n 32) as [->|?]. { apply gbind_ok in H. destruct H as (x & _ & H). fin3 H EN. }
    apply ret_inj in H. apply ok_inj in H. injection H as <- <-. rewrite andb_true_r. split; [intros _; split; [reflexivity|]|].
    { destruct (e_critical e); split; try reflexivity; discriminate. }
    split; [|rewrite EN; intros Q; injection Q as ->; contradiction].
    rewrite EN. intros Q. cbn in Q. destruct Q as [Q|Q]; [discriminate Q|].
    repeat (destruct Q as [Q|Q]; [injection Q as <-; contradiction|]). contradiction.
  - destruct (oidEqual (e_id e) oidExtensionAuthorityInfoAccess) eqn:EA.
    + apply oidEqual_eq in EA. apply gbind_ok in H. destruct H as (x & _ & H). fin3 H EA.
    + apply ret_inj in H. apply ok_inj in H. injection H as <- <-. rewrite andb_true_r. split; [intros _; split; [reflexivity|]|].
      { destruct (e_critical e); split; try reflexivity; discriminate. }
      split; [|intros Q; rewrite Q in EN; discriminate EN].
      intros Q. cbn in Q. destruct Q as [Q|Q]; [rewrite <- Q in EA; discriminate EA|].
      repeat (destruct Q as [Q|Q]; [rewrite <- Q in EN; discriminate EN|]). contradiction.
Qed.
End Env.

(** Two basic constraints: the last one counts, also against the first. Two lists of extended usages add
    up. An unknown critical extension is listed. *)
Example C88_ex : forall E,
  let no_ca := mkExt (id_ce 19) true [0x30; 0] in
  let ca := mkExt (id_ce 19) true [0x30; 3; 1; 1; 0xff] in
  let eku n := mkExt (id_ce 37) false [0x30; 10; 6; 8; 0x2b; 6; 1; 5; 5; 7; 3; n] in
  let odd c := mkExt [1; 2; 3] c [5; 0] in
  exists f g,
    parseExtensions E [no_ca; eku 1; odd true; ca; eku 2; odd false] (zeroFields E) [] = Ret (OK (f, [[1; 2; 3]])) /\
    f_IsCA E f = true /\ f_ExtKeyUsage E f = [1; 2] /\ f_KeyUsage E f = 0 /\
    parseExtensions E [ca; no_ca] (zeroFields E) [] = Ret (OK (g, [])) /\ f_IsCA E g = false /\ f_BasicConstraintsValid E g = true.
Proof. intros E no_ca ca eku odd. eexists. eexists. split; [vm_compute; reflexivity|]. split; [reflexivity|]. split; [reflexivity|]. split; [reflexivity|]. split; [vm_compute; reflexivity|]. split; reflexivity. Qed.
