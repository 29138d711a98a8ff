(** CreateCertificateRequest again, with the memory that the template's attributes live in. A template's
    Attributes are a list of types with slices of slices; the call appends to one of the inner slices and
    stores the result in an outer one. *)
From Coq Require Import ZArith List Lia Bool String.
From Verif Require Import GoBase GoAsn1 GoElliptic Sm2 Sm2Der GoText GoPkix CertText Cert.
Import ListNotations.
Open Scope Z_scope.

(** A []pkix.AttributeTypeAndValue: window and capacity in an array. *)
Record islice : Set := mkIS { s_arr : nat; s_off : nat; s_len : nat; s_cap : nat }.
(** A [][]pkix.AttributeTypeAndValue; it is never appended to. *)
Record oslice : Set := mkOS { v_arr : nat; v_off : nat; v_len : nat }.
(** pkix.AttributeTypeAndValueSET. *)
Record attr : Set := mkAttr { t_type : list Z; t_value : oslice }.
(** The arrays of attributes and the arrays of slices. *)
Record heap : Set := mkHeap { inner : list (list ATV); outer : list (list islice) }.

(** What is read through a slice. *)
Definition window {A} (off len : nat) (l : list A) : list A := firstn len (skipn off l).
Definition readI (h : heap) (s : islice) : list ATV := window (s_off s) (s_len s) (nth (s_arr s) (inner h) []).
Definition readO (h : heap) (v : oslice) : list islice := window (v_off v) (v_len v) (nth (v_arr v) (outer h) []).
Definition view (h : heap) (a : attr) : ATVSet := mkATVS (t_type a) (map (readI h) (readO h (t_value a))).

(** Assignment to consecutive cells of an array, and to one array of the memory. *)
Fixpoint setNth {A} (n : nat) (x : A) (l : list A) : list A :=
  match l, n with [], _ => [] | _ :: r, O => x :: r | y :: r, S n => y :: setNth n x r end.
Definition writeAt {A} (l : list A) (o : nat) (xs : list A) : list A := firstn o l ++ xs ++ skipn (o + List.length xs) l.
Definition zeroATV : ATV := mkATV [] AnyNil.

Section Env.
Variable E : netEnv.
(** How many cells more than needed the runtime allocates when a slice grows. *)
Variable spare : nat -> nat.

(** append(s, xs...): in place if the capacity allows it. *)
Definition appendI (h : heap) (s : islice) (xs : list ATV) : heap * islice :=
  let n := (s_len s + List.length xs)%nat in
  if (n <=? s_cap s)%nat
  then (mkHeap (setNth (s_arr s) (writeAt (nth (s_arr s) (inner h) []) (s_off s + s_len s) xs) (inner h)) (outer h),
        mkIS (s_arr s) (s_off s) n (s_cap s))
  else (mkHeap (inner h ++ [readI h s ++ xs ++ repeat zeroATV (spare n)]) (outer h),
        mkIS (List.length (inner h)) 0 n (n + spare n)).

(** gmx509.go:135-144: the loop over the copied attributes. [None] if there is none to append to. *)
Fixpoint appendLoop (h : heap) (atvs : list ATV) (attrs : list attr) : option heap :=
  match attrs with
  | [] => None
  | a :: r =>
      if negb (oidEqual (t_type a) oidExtensionRequest) || (v_len (t_value a) =? 0)%nat then appendLoop h atvs r
      else match readO h (t_value a) with
           | [] => None
           | s0 :: _ =>
               let '(h, s) := appendI h s0 atvs in
               Some (mkHeap (inner h) (setNth (v_arr (t_value a)) (writeAt (nth (v_arr (t_value a)) (outer h) []) (v_off (t_value a)) [s]) (outer h)))
           end
  end.

(** gmx509.go:99-155. The slice atvs has room for all the extensions. The attributes are copied into a
    new slice, the slices in them are shared with the template. *)
Definition attributesM (h : heap) (attrs : list attr) (extensions : list Extension) : heap * list attr :=
  if 0 <? zlen extensions then
    let atvs := extensionATVs (map (view h) attrs) extensions in
    let new := List.length (inner h) in
    let h := mkHeap (inner h ++ [atvs ++ repeat zeroATV (List.length extensions - List.length atvs)]) (outer h) in
    match appendLoop h atvs attrs with
    | Some h => (h, attrs)
    | None =>
        (mkHeap (inner h) (outer h ++ [[mkIS new 0 (List.length atvs) (List.length extensions)]]),
         attrs ++ [mkAttr oidExtensionRequest (mkOS (List.length (outer h)) 0 1)])
    end
  else (h, attrs).

(** gmx509.go:157-206: the rest of the function, once the attributes are known. *)
Definition finishRequest (template : CertificateRequest E) (publicKeyBytes : list Z) (publicKeyAlgorithm : AlgorithmIdentifier)
    (attributes : list ATVSet) (pri : PrivateKey) (userId : option (list Z)) (tape : list Z) : go (res (list Z) * list Z) :=
  let tbs :=
    try asn1Subject <- (match r_RawSubject E template with
                        | [] => marshalRDNSequence (ToRDNSequence (r_Subject E template))
                        | raw => OK raw
                        end);
    try rawAttributes <- newRawAttributes attributes;
    let tbsCSR := mkTbsCSR [] 0 (mkRaw 0 0 false [] asn1Subject)
                    (mkPKI [] publicKeyAlgorithm (mkBits publicKeyBytes (zlen publicKeyBytes * 8))) rawAttributes in
    try tbsCSRContents <- fieldTbsCSR tbsCSR;
    OK (tbsCSR, tbsCSRContents) in
  match tbs with
  | ERR e => Ret (ERR e, tape)
  | OK (tbsCSR, tbsCSRContents) =>
      do (signature, tape) <- Sign pri userId tbsCSRContents tape;
      match signature with
      | ERR e => Ret (ERR e, tape)
      | OK signature =>
          Ret (fieldCsr (mkCsr [] (mkTbsCSR tbsCSRContents (tr_version tbsCSR) (tr_subject tbsCSR) (tr_key tbsCSR) (tr_attrs tbsCSR))
                               (mkAlg oidSignatureSM3WithSM2 zeroRaw) (mkBits signature (zlen signature * 8))), tape)
      end
  end.

(** gmx509.go:75-206, for a template whose Attributes are [attrs] in the memory [h]; the field
    [r_Attributes] of [template] is not used. The result has the memory afterwards. *)
Definition CreateCertificateRequestM (h : heap) (attrs : list attr) (template : CertificateRequest E) (pub : PublicKey) (pri : PrivateKey)
    (userId : option (list Z)) (tape : list Z) : go (res (list Z) * list Z * heap) :=
  do (publicKeyBytes, publicKeyAlgorithm) <- marshalPublicKey pub;
  match requestedExtensions E template with
  | ERR e => Ret (ERR e, tape, h)
  | OK extensions =>
      let '(h, attributes) := attributesM h attrs extensions in
      do (r, tape) <- finishRequest template publicKeyBytes publicKeyAlgorithm (map (view h) attributes) pri userId tape;
      Ret (r, tape, h)
  end.
End Env.
