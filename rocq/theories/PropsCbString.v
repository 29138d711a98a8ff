(** Properties C18-C24: cryptobyte's String reader. *)
From Coq Require Import ZArith List Lia Bool String.
From Verif Require Import GoBase BeMin CbString CbStringProofs.
Import ListNotations.
Open Scope Z_scope.

(** * C18: fixed-width integers *)

Definition uint_readers : list (Z * (cstr -> go (option Z * cstr))) :=
  [(1, ReadUint8); (2, ReadUint16); (3, ReadUint24); (4, ReadUint32)].

Lemma uint_readers_ok : forall k f, In (k, f) uint_readers -> uint_reader k f /\ 1 <= k <= 4.
Proof.
  intros k f H. cbn in H.
  destruct H as [H|[H|[H|[H|[]]]]]; injection H as <- <-; split; try lia;
    auto using ReadUint8_spec, ReadUint16_spec, ReadUint24_spec, ReadUint32_spec.
Qed.

Lemma some_of_len : forall s, 1 <= slen s -> exists l, s = Some l.
Proof. intros [l|] H; [eauto|cbn in H; lia]. Qed.

Theorem C18_read_uint : forall k f s, In (k, f) uint_readers -> bytes (contents s) ->
  f s = if slen s <? k then Ret (None, s)
        else Ret (Some (be_dec (sub (contents s) 0 k)), Some (sub (contents s) k (slen s))).
Proof.
  intros k f s HI HB. destruct (uint_readers_ok k f HI) as [[F S] Hk].
  destruct (Z.ltb_spec (slen s) k) as [L|L]; [auto|].
  destruct (some_of_len s ltac:(lia)) as [l ->]. cbn [contents] in *. unfold slen in *. cbn [contents] in *.
  destruct (split_at _ l k ltac:(lia)) as (v & r & -> & Hv).
  apply bytes_app in HB. rewrite S by tauto.
  rewrite sub_app_l by auto. rewrite zlen_app, sub_app_r by lia. reflexivity.
Qed.

Example C18_witness : ReadUint24 (Some [1; 2; 3; 4]) = Ret (Some 0x010203, Some [4]).
Proof. reflexivity. Qed.

(** * C19: length-prefixed reads *)

Definition lp_readers : list (Z * (cstr -> go (option (list Z) * cstr))) :=
  [(1, ReadUint8LengthPrefixed); (2, ReadUint16LengthPrefixed); (3, ReadUint24LengthPrefixed)].

Theorem C19_read_length_prefixed : forall k f s, In (k, f) lp_readers -> bytes (contents s) ->
  f s =
    if slen s <? k then Ret (None, s)
    else
      let n := be_dec (sub (contents s) 0 k) in
      let body := sub (contents s) k (slen s) in
      if slen s <? k + n then Ret (None, Some body)
      else Ret (Some (sub body 0 n), Some (sub body n (zlen body))).
Proof.
  intros k f s HI HB.
  assert (HK : 1 <= k <= 3 /\ f = fun s => readLengthPrefixed s k).
  { cbn in HI. destruct HI as [H|[H|[H|[]]]]; injection H as <- <-; split; try lia; reflexivity. }
  destruct HK as [HK ->]. clear HI.
  destruct (Z.ltb_spec (slen s) k) as [L|L]; [apply rlp_short_prefix; auto|].
  destruct (some_of_len s ltac:(lia)) as [l ->]. unfold slen in *. cbn [contents] in *.
  destruct (split_at _ l k ltac:(lia)) as (p & b & -> & Hp).
  apply bytes_app in HB. destruct HB as [Bp Bb]. rewrite sub_app_l by auto.
  pose proof (be_dec_bound p Bp) as HD.
  rewrite zlen_app, sub_app_r by lia. cbv zeta.
  destruct (Z.ltb_spec (zlen p + zlen b) (k + be_dec p)) as [M|M].
  - apply rlp_short_body; auto; lia.
  - destruct (split_at _ b (be_dec p) ltac:(lia)) as (c & r & -> & Hc).
    rewrite (rlp_ok k p c r) by (auto; lia).
    rewrite sub_app_l by auto. rewrite zlen_app, sub_app_r by lia. reflexivity.
Qed.

Example C19_witness_ok :
  ReadUint16LengthPrefixed (Some [0; 2; 7; 8; 9]) = Ret (Some [7; 8], Some [9]).
Proof. reflexivity. Qed.
(** The prefix is consumed although the read fails. *)
Example C19_witness_short : ReadUint8LengthPrefixed (Some [3; 7; 8]) = Ret (None, Some [7; 8]).
Proof. reflexivity. Qed.

(** * C21: Skip and ReadBytes *)

Theorem C21_skip : forall s n,
  Skip s n = if n <? 0 then Panic PSlice
             else match s with
                  | None => Ret (false, None)
                  | Some l => if n <=? zlen l then Ret (true, Some (sub l n (zlen l)))
                              else Ret (false, s)
                  end.
Proof.
  intros s n. unfold Skip. destruct (Z.ltb_spec n 0).
  { rewrite read_neg by auto. reflexivity. }
  destruct s as [l|]; [|rewrite read_nil by auto; reflexivity].
  destruct (Z.leb_spec n (zlen l)).
  - destruct (split_at _ l n ltac:(lia)) as (a & b & -> & Ha).
    rewrite read_app by auto. rewrite zlen_app, sub_app_r by lia. reflexivity.
  - rewrite read_short by (unfold slen; auto). reflexivity.
Qed.

Theorem C21_read_bytes : forall s n,
  ReadBytes s n = if n <? 0 then Panic PSlice
                  else match s with
                       | None => Ret (None, None)
                       | Some l => if n <=? zlen l
                                   then Ret (Some (sub l 0 n), Some (sub l n (zlen l)))
                                   else Ret (None, s)
                       end.
Proof.
  intros s n. unfold ReadBytes. destruct (Z.ltb_spec n 0).
  { rewrite read_neg by auto. reflexivity. }
  destruct s as [l|]; [|rewrite read_nil by auto; reflexivity].
  destruct (Z.leb_spec n (zlen l)).
  - destruct (split_at _ l n ltac:(lia)) as (a & b & -> & Ha).
    rewrite read_app by auto. rewrite zlen_app, sub_app_l, sub_app_r by lia. reflexivity.
  - rewrite read_short by (unfold slen; auto). reflexivity.
Qed.

Theorem C21_copy_bytes : forall s out,
  CopyBytes s out = match s with
                    | None => Ret (false, out, None)
                    | Some l => if zlen out <=? zlen l
                                then Ret (true, sub l 0 (zlen out), Some (sub l (zlen out) (zlen l)))
                                else Ret (false, out, s)
                    end.
Proof.
  intros s out. unfold CopyBytes. pose proof (zlen_nonneg _ out).
  destruct s as [l|]; [|rewrite read_nil by auto; reflexivity].
  destruct (Z.leb_spec (zlen out) (zlen l)).
  - destruct (split_at _ l (zlen out) ltac:(lia)) as (a & b & -> & Ha).
    rewrite read_app by auto. cbn [bind]. rewrite zlen_app, sub_app_l, sub_app_r by lia.
    assert (E : List.length out = List.length a) by (unfold zlen in Ha; lia).
    rewrite E, Nat.min_id, firstn_all, skipn_all2, app_nil_r by lia.
    unfold zlen. rewrite E, Z.eqb_refl. reflexivity.
  - rewrite read_short by (unfold slen; auto). reflexivity.
Qed.

(** An empty non-nil String can be skipped by zero, the nil String cannot. *)
Example C21_witness_empty : Skip (Some []) 0 = Ret (true, Some []).
Proof. reflexivity. Qed.
Example C21_witness_nil : Skip None 0 = Ret (false, None).
Proof. reflexivity. Qed.
Example C21_witness_neg : Skip (Some [1; 2]) (-1) = Panic PSlice.
Proof. reflexivity. Qed.

(** * C22: which byte strings are elements *)

(** [element s t c r]: [s] is the element with identifier [t] and contents [c], followed by [r];
    the tag number is below 31 and header and contents together have at most 2^32-1 bytes. *)
Definition element (s : cstr) (t : Z) (c r : list Z) : Prop :=
  s = Some (tlv t c ++ r) /\ low_tag t /\ zlen (tlv t c) <= 2 ^ 32 - 1.

Lemma element_byte : forall s t c r, bytes (contents s) -> element s t c r -> byte t.
Proof.
  intros s t c r HB (-> & _ & _). cbn [contents] in HB. unfold tlv in HB. cbn [app] in HB.
  apply bytes_cons in HB. tauto.
Qed.

Lemma element_inj : forall s t1 c1 r1 t2 c2 r2, element s t1 c1 r1 -> element s t2 c2 r2 ->
  t1 = t2 /\ c1 = c2 /\ r1 = r2.
Proof.
  intros s t1 c1 r1 t2 c2 r2 (E1 & _ & L1) (E2 & _ & L2). subst s. pose proof (f_equal contents E2) as E3. cbn [contents] in E3.
  rewrite zlen_tlv in L1, L2. pose proof (zlen_der_len_pos (zlen c1)). pose proof (zlen_der_len_pos (zlen c2)).
  apply tlv_inj; [lia|lia|exact E3].
Qed.

Lemma element_read : forall s t c r out t0 skip, bytes (contents s) -> element s t c r ->
  readASN1 s out t0 skip = Ret (true, Some (asn1_out skip t c), t, Some r).
Proof.
  intros s t c r out t0 skip HB HE. pose proof (element_byte _ _ _ _ HB HE).
  destruct HE as (-> & HL & HS). apply readASN1_tlv; auto.
Qed.

Lemma element_dec : forall s out t0 skip, bytes (contents s) ->
  (exists t c r, element s t c r) \/ (exists t', readASN1 s out t0 skip = Ret (false, out, t', s)).
Proof.
  intros s out t0 skip HB.
  destruct (readASN1_cases s out t0 skip HB) as [(t & c & r & E & Hb & HL & HS)|H]; [left|right; auto].
  exists t, c, r. split; auto.
Qed.

Theorem C22_read_any : forall s out t0 t out' s', bytes (contents s) ->
  (ReadAnyASN1 s out t0 = Ret (true, out', t, s') <->
   exists c r, element s t c r /\ out' = Some c /\ s' = Some r).
Proof.
  intros s out t0 t out' s' HB. unfold ReadAnyASN1. split.
  - intro H. destruct (element_dec s out t0 true HB) as [(t1 & c & r & E)|[t' E]].
    + rewrite (element_read _ _ _ _ out t0 true HB E) in H. injection H as <- <- <-.
      exists c, r. auto.
    + rewrite E in H. discriminate.
  - intros (c & r & E & -> & ->). rewrite (element_read _ _ _ _ out t0 true HB E). reflexivity.
Qed.

Theorem C22_read_any_element : forall s out t0 t out' s', bytes (contents s) ->
  (ReadAnyASN1Element s out t0 = Ret (true, out', t, s') <->
   exists c r, element s t c r /\ out' = Some (tlv t c) /\ s' = Some r).
Proof.
  intros s out t0 t out' s' HB. unfold ReadAnyASN1Element. split.
  - intro H. destruct (element_dec s out t0 false HB) as [(t1 & c & r & E)|[t' E]].
    + rewrite (element_read _ _ _ _ out t0 false HB E) in H. injection H as <- <- <-.
      exists c, r. auto.
    + rewrite E in H. discriminate.
  - intros (c & r & E & -> & ->). rewrite (element_read _ _ _ _ out t0 false HB E). reflexivity.
Qed.

(** It never panics, and when it returns false the String and the output are unchanged. *)
Theorem C22_never_panics : forall s out t0 skip, bytes (contents s) ->
  exists ok out' t' s', readASN1 s out t0 skip = Ret (ok, out', t', s') /\
    (ok = false -> s' = s /\ out' = out).
Proof.
  intros s out t0 skip HB. destruct (element_dec s out t0 skip HB) as [(t & c & r & E)|[t' E]].
  - rewrite (element_read _ _ _ _ out t0 skip HB E).
    do 4 eexists. split; [reflexivity|discriminate].
  - do 4 eexists. split; [exact E|auto].
Qed.

Example C22_witness_long :
  element (Some (tlv 4 (repeat 7 200) ++ [1; 2])) 4 (repeat 7 200) [1; 2] /\
  ReadAnyASN1 (Some ([4; 0x81; 200] ++ repeat 7 200 ++ [1; 2])) None 0
    = Ret (true, Some (repeat 7 200), 4, Some [1; 2]).
Proof.
  split; [|vm_compute; reflexivity]. split; [reflexivity|].
  split; [vm_compute; discriminate|vm_compute; discriminate].
Qed.
(** Non-minimal lengths, indefinite lengths and high tags are refused. *)
Example C22_witness_refused :
  ReadAnyASN1 (Some [4; 0x81; 1; 7]) None 0 = Ret (false, None, 4, Some [4; 0x81; 1; 7]) /\
  ReadAnyASN1 (Some [4; 0x80; 0; 0]) None 0 = Ret (false, None, 4, Some [4; 0x80; 0; 0]) /\
  ReadAnyASN1 (Some [0x1f; 1; 0]) None 0 = Ret (false, None, 0, Some [0x1f; 1; 0]).
Proof. repeat split; reflexivity. Qed.

(** * C23: canonical *)

Theorem C23_canonical : forall s1 s2 o1 o2 t1 t2 t out s',
  bytes (contents s1) -> bytes (contents s2) ->
  ReadAnyASN1 s1 o1 t1 = Ret (true, out, t, s') ->
  ReadAnyASN1 s2 o2 t2 = Ret (true, out, t, s') -> s1 = s2.
Proof.
  intros s1 s2 o1 o2 t1 t2 t out s' B1 B2 H1 H2.
  apply C22_read_any in H1; auto. apply C22_read_any in H2; auto.
  destruct H1 as (c1 & r1 & (-> & _) & -> & ->). destruct H2 as (c2 & r2 & (-> & _) & E1 & E2).
  injection E1 as <-. injection E2 as <-. reflexivity.
Qed.

Example C23_witness :
  ReadAnyASN1 (Some [4; 1; 7; 9]) None 0 = Ret (true, Some [7], 4, Some [9]).
Proof. reflexivity. Qed.

(** * C24: reading with an expected tag *)

Lemma ReadASN1_element : forall s t c r out tag, bytes (contents s) -> element s t c r ->
  ReadASN1 s out tag = Ret (t =? tag, Some c, Some r).
Proof.
  intros s t c r out tag HB E. unfold ReadASN1, ReadAnyASN1.
  rewrite (element_read _ _ _ _ out 0 true HB E). cbn. destruct (t =? tag); reflexivity.
Qed.

Lemma ReadASN1_fail : forall s out tag, bytes (contents s) -> (~ exists t c r, element s t c r) ->
  ReadASN1 s out tag = Ret (false, out, s).
Proof.
  intros s out tag HB N. unfold ReadASN1, ReadAnyASN1.
  destruct (element_dec s out 0 true HB) as [H|[t' E]]; [contradiction|]. rewrite E. reflexivity.
Qed.

Lemma ReadASN1Element_element : forall s t c r out tag, bytes (contents s) -> element s t c r ->
  ReadASN1Element s out tag = Ret (t =? tag, Some (tlv t c), Some r).
Proof.
  intros s t c r out tag HB E. unfold ReadASN1Element, ReadAnyASN1Element.
  rewrite (element_read _ _ _ _ out 0 false HB E). cbn. destruct (t =? tag); reflexivity.
Qed.

Lemma ReadASN1Element_fail : forall s out tag, bytes (contents s) ->
  (~ exists t c r, element s t c r) -> ReadASN1Element s out tag = Ret (false, out, s).
Proof.
  intros s out tag HB N. unfold ReadASN1Element, ReadAnyASN1Element.
  destruct (element_dec s out 0 false HB) as [H|[t' E]]; [contradiction|]. rewrite E. reflexivity.
Qed.

Lemma element_em : forall s, bytes (contents s) ->
  (exists t c r, element s t c r) \/ ~ (exists t c r, element s t c r).
Proof.
  intros s HB. destruct (element_dec s None 0 true HB) as [H|[t' E]]; [auto|].
  right. intros (t & c & r & H). rewrite (element_read _ _ _ _ None 0 true HB H) in E. discriminate.
Qed.

(** A well-formed element is consumed whatever its tag, and [out] is overwritten; only the
    return value depends on the tag.  Anything else consumes nothing. *)
Theorem C24_read_asn1 : forall s out tag, bytes (contents s) ->
  (forall t c r, element s t c r -> ReadASN1 s out tag = Ret (t =? tag, Some c, Some r)) /\
  ((~ exists t c r, element s t c r) -> ReadASN1 s out tag = Ret (false, out, s)).
Proof.
  intros. split; intros; [apply ReadASN1_element|apply ReadASN1_fail]; auto.
Qed.

Theorem C24_read_asn1_element : forall s out tag, bytes (contents s) ->
  (forall t c r, element s t c r ->
     ReadASN1Element s out tag = Ret (t =? tag, Some (tlv t c), Some r)) /\
  ((~ exists t c r, element s t c r) -> ReadASN1Element s out tag = Ret (false, out, s)).
Proof.
  intros. split; intros; [apply ReadASN1Element_element|apply ReadASN1Element_fail]; auto.
Qed.

Theorem C24_skip_asn1 : forall s tag, bytes (contents s) ->
  (forall t c r, element s t c r -> SkipASN1 s tag = Ret (t =? tag, Some r)) /\
  ((~ exists t c r, element s t c r) -> SkipASN1 s tag = Ret (false, s)).
Proof.
  intros s tag HB. unfold SkipASN1. split; intros.
  - rewrite (ReadASN1_element s t c r) by auto. reflexivity.
  - rewrite ReadASN1_fail by auto. reflexivity.
Qed.

Theorem C24_peek : forall s tag,
  PeekASN1Tag s tag = Ret (match contents s with [] => false | t :: _ => t =? tag end).
Proof.
  intros [[|t l]|] tag; reflexivity.
Qed.

Example C24_witness : ReadASN1 (Some [4; 1; 7; 2; 1; 5]) None INTEGER
  = Ret (false, Some [7], Some [2; 1; 5]).
Proof. reflexivity. Qed.

(** * C20: the reader only moves forward *)

(** What is left is a suffix of what was there. *)
Definition suffix (s' s : cstr) : Prop := exists p, contents s = p ++ contents s'.

Lemma suffix_refl : forall s, suffix s s.
Proof. intros. exists []. reflexivity. Qed.

Lemma suffix_trans : forall a b c, suffix a b -> suffix b c -> suffix a c.
Proof. intros a b c [p H] [q K]. exists (q ++ p). rewrite K, H, app_assoc. reflexivity. Qed.

Lemma suffix_bytes : forall s' s, suffix s' s -> bytes (contents s) -> bytes (contents s').
Proof. intros s' s [p H] HB. rewrite H in HB. apply bytes_app in HB. tauto. Qed.

Lemma read_suffix : forall s n v s', read s n = Ret (v, s') ->
  suffix s' s /\ (forall a, v = Some a -> contents s = a ++ contents s' /\ zlen a = n).
Proof.
  intros s n v s' H. destruct (Z_lt_le_dec n 0) as [L|L]; [rewrite read_neg in H; [discriminate|auto]|].
  destruct (read_cases s n L) as [[E _]|(a & b & -> & Ha & E)]; rewrite E in H; injection H as <- <-.
  - split; [apply suffix_refl|discriminate].
  - split; [exists a; reflexivity|]. intros a' Ea. injection Ea as <-. auto.
Qed.

Lemma readASN1_suffix : forall s out t0 skip ok out' t s', bytes (contents s) ->
  readASN1 s out t0 skip = Ret (ok, out', t, s') ->
  suffix s' s /\
  (ok = true -> skip = false -> contents s = contents out' ++ contents s').
Proof.
  intros s out t0 skip ok out' t s' HB H.
  destruct (element_dec s out t0 skip HB) as [(t1 & c & r & E)|[t1 E]].
  - rewrite (element_read _ _ _ _ out t0 skip HB E) in H. injection H as <- <- <- <-.
    destruct E as (-> & _). split; [exists (tlv t1 c); reflexivity|].
    intros _ ->. reflexivity.
  - rewrite E in H. injection H as <- <- <- <-. split; [apply suffix_refl|discriminate].
Qed.

Lemma ReadASN1_suffix : forall s out tag ok out' s', bytes (contents s) ->
  ReadASN1 s out tag = Ret (ok, out', s') -> suffix s' s.
Proof.
  intros s out tag ok out' s' HB H. unfold ReadASN1, ReadAnyASN1 in H.
  apply bind_ret in H. destruct H as ([[[ok1 o1] t1] s1] & H1 & H2).
  apply readASN1_suffix in H1; auto.
  destruct (negb ok1 || negb (t1 =? tag)); injection H2 as <- <- <-; tauto.
Qed.

Ltac crush_ret :=
  repeat match goal with
  | H : bind _ _ = Ret _ |- _ => apply bind_ret in H; destruct H as (? & ? & H)
  | H : Ret _ = Ret _ |- _ => injection H; clear H; intros; subst
  | H : Panic _ = Ret _ |- _ => discriminate H
  | H : (let (_, _) := ?x in _) = Ret _ |- _ => destruct x
  | H : (if ?b then _ else _) = Ret _ |- _ => destruct b
  | H : (match ?x with Some _ => _ | None => _ end) = Ret _ |- _ => destruct x
  | H : (match ?x with KInt _ => _ | KUint _ => _ | KBig => _ | KOther => _ | KNoPtr => _ end)
        = Ret _ |- _ => destruct x
  end.

Ltac by_ReadASN1 :=
  crush_ret;
  repeat match goal with
  | H : ReadASN1 _ _ _ = Ret _ |- _ => apply ReadASN1_suffix in H; [|assumption]
  | H : read _ _ = Ret _ |- _ => apply read_suffix in H; destruct H
  end; eauto using suffix_refl, suffix_trans.

(** [moves f]: whatever [f] returns, the String afterwards is a suffix of the String before. *)
Definition moves {A} (f : cstr -> go (A * cstr)) : Prop :=
  forall s a s', bytes (contents s) -> f s = Ret (a, s') -> suffix s' s.

Lemma boolean_moves : moves ReadASN1Boolean.
Proof. intros s a s' HB H. unfold ReadASN1Boolean in H. by_ReadASN1. Qed.

Lemma integer_moves : forall k, moves (fun s => ReadASN1Integer s k).
Proof.
  intros k s a s' HB H. cbv beta in H.
  unfold ReadASN1Integer, readASN1Int64, readASN1Uint64, readASN1BigInt in H. by_ReadASN1.
Qed.

Lemma optional_moves : forall s out tag ok o p s', bytes (contents s) ->
  ReadOptionalASN1 s out tag = Ret (ok, o, p, s') -> suffix s' s.
Proof. intros s out tag ok o p s' HB H. unfold ReadOptionalASN1 in H. by_ReadASN1. Qed.

Theorem C20_suffix_simple :
  (forall n, moves (fun s => Skip s n)) /\
  moves ReadUint8 /\ moves ReadUint16 /\ moves ReadUint24 /\ moves ReadUint32 /\
  moves ReadUint8LengthPrefixed /\ moves ReadUint16LengthPrefixed /\ moves ReadUint24LengthPrefixed /\
  (forall n, moves (fun s => ReadBytes s n)) /\
  (forall out, moves (fun s => CopyBytes s out)).
Proof.
  unfold moves, Skip, ReadUint8, ReadUint16, ReadUint24, ReadUint32, ReadUint8LengthPrefixed,
    ReadUint16LengthPrefixed, ReadUint24LengthPrefixed, readLengthPrefixed, ReadBytes, CopyBytes.
  repeat match goal with |- _ /\ _ => split end; intros; by_ReadASN1.
Qed.

Theorem C20_suffix_asn1 :
  (forall out t0 skip, moves (fun s => readASN1 s out t0 skip)) /\
  (forall out tag, moves (fun s => ReadASN1 s out tag)) /\
  (forall out tag, moves (fun s => ReadASN1Element s out tag)) /\
  (forall tag, moves (fun s => SkipASN1 s tag)) /\
  moves ReadASN1Boolean /\
  (forall k, moves (fun s => ReadASN1Integer s k)) /\
  moves ReadASN1Enum /\
  moves ReadASN1ObjectIdentifier /\
  moves ReadASN1BitString /\ moves ReadASN1BitStringAsBytes /\
  (forall out tag, moves (fun s => ReadOptionalASN1 s out tag)) /\
  (forall tag, moves (fun s => SkipOptionalASN1 s tag)) /\
  (forall k tag d, moves (fun s => ReadOptionalASN1Integer s k tag d)) /\
  (forall tag, moves (fun s => ReadOptionalASN1OctetString s tag)) /\
  (forall d, moves (fun s => ReadOptionalASN1Boolean s d)).
Proof.
  repeat match goal with |- _ /\ _ => split end.
  - intros out t0 skip s [[ok o] t] s' HB H. apply readASN1_suffix in H; tauto.
  - intros out tag s [ok o] s' HB H. eapply ReadASN1_suffix; eauto.
  - intros out tag s [ok o] s' HB H. unfold ReadASN1Element, ReadAnyASN1Element in H.
    apply bind_ret in H. destruct H as ([[[ok1 o1] t1] s1] & H1 & H2).
    apply readASN1_suffix in H1; auto.
    destruct (negb ok1 || negb (t1 =? tag)); injection H2 as <- <- <-; tauto.
  - intros tag s a s' HB H. unfold SkipASN1 in H. by_ReadASN1.
  - exact boolean_moves.
  - exact integer_moves.
  - intros s a s' HB H. unfold ReadASN1Enum in H. by_ReadASN1.
  - intros s a s' HB H. unfold ReadASN1ObjectIdentifier in H. by_ReadASN1.
  - intros s a s' HB H. unfold ReadASN1BitString in H. by_ReadASN1.
  - intros s a s' HB H. unfold ReadASN1BitStringAsBytes in H. by_ReadASN1.
  - intros out tag s [[ok o] p] s' HB H. eapply optional_moves; eauto.
  - intros tag s a s' HB H. unfold SkipOptionalASN1 in H. by_ReadASN1.
  - intros k tag d s a s' HB H. unfold ReadOptionalASN1Integer in H.
    crush_ret; try (eapply optional_moves; eassumption).
  - intros tag s a s' HB H. unfold ReadOptionalASN1OctetString in H.
    crush_ret; try (eapply optional_moves; eassumption).
  - intros d s a s' HB H. unfold ReadOptionalASN1Boolean in H.
    apply bind_ret in H. destruct H as ([[[ok1 o1] p1] s1] & H1 & H2).
    assert (S1 : suffix s1 s) by (eapply optional_moves; eauto).
    destruct (negb ok1); [injection H2 as <- <-; auto|].
    destruct (negb p1); [injection H2 as <- <-; auto|].
    eapply suffix_trans; [|exact S1]. eapply boolean_moves; [|exact H2].
    eapply suffix_bytes; eauto.
Qed.

(** For the raw reads the value and what is left make up exactly what was there. *)
Theorem C20_partition :
  (forall s n v s', ReadBytes s n = Ret (Some v, s') -> contents s = v ++ contents s') /\
  (forall s out v s', CopyBytes s out = Ret (true, v, s') -> contents s = v ++ contents s') /\
  (forall s out t0 v t s', bytes (contents s) ->
     ReadAnyASN1Element s out t0 = Ret (true, v, t, s') -> contents s = contents v ++ contents s') /\
  (forall s out tag v s', bytes (contents s) ->
     ReadASN1Element s out tag = Ret (true, v, s') -> contents s = contents v ++ contents s').
Proof.
  repeat match goal with |- _ /\ _ => split end.
  - intros s n v s' H. unfold ReadBytes in H. crush_ret.
    match goal with H : read _ _ = _ |- _ => apply read_suffix in H; apply H; reflexivity end.
  - intros s out v s' H. rewrite C21_copy_bytes in H. destruct s as [l|]; [|discriminate].
    destruct (Z.leb_spec (zlen out) (zlen l)); [|discriminate]. injection H as <- <-.
    cbn [contents]. destruct (split_at _ l (zlen out) ltac:(pose proof (zlen_nonneg _ out); lia)) as (a & b & -> & Ha).
    rewrite zlen_app, sub_app_l, sub_app_r by lia. reflexivity.
  - intros s out t0 v t s' HB H. apply readASN1_suffix in H; auto. tauto.
  - intros s out tag v s' HB H. unfold ReadASN1Element, ReadAnyASN1Element in H.
    apply bind_ret in H. destruct H as ([[[ok1 o1] t1] s1] & H1 & H2).
    apply readASN1_suffix in H1; auto. destruct ok1; [|discriminate].
    destruct (t1 =? tag); [|discriminate]. injection H2 as <- <-. tauto.
Qed.

Example C20_witness :
  ReadASN1Element (Some [2; 1; 5; 9]) None INTEGER = Ret (true, Some [2; 1; 5], Some [9]).
Proof. reflexivity. Qed.
