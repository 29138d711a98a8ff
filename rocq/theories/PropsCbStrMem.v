(** C114: what the reading calls of cryptobyte do with memory. *)
From Coq Require Import ZArith List Lia Bool String.
From Verif Require Import GoBase CbString GoAsn1 GoText PropsCertTime PropsCbTime CbMem CbMemSim CbStrMem CbStrMemSim.
Import ListNotations.
Open Scope Z_scope.

(** asn1.go:435-450 *)
Definition ReadASN1GeneralizedTimeS (p : nat) : M (option Time) := valueS p GeneralizedTime (fun bs =>
  Ret (match parseGeneralizedTime bs with OK t => Some t | ERR _ => None end)).

(** A call of a method of *String, except CopyBytes. The variables are given apart. *)
Inductive call :=
| CSkip (n : Z) | CUint8 | CUint16 | CUint24 | CUint32 | CUnsigned (n : Z) | CEmpty | CPeek (tag : Z)
| CSkipASN1 (tag : Z) | CSkipOptional (tag : Z) | CBoolean | CInteger (k : ikind) | CEnum | COid | CTime
| COptInteger (k : ikind) (tag default : Z) | COptBoolean (default : bool)
| CBytes (n : Z) | CPrefixed (lenLen : Z) | CASN1 (tag : Z) | CElement (tag : Z) | CAny (outTag : Z) | CAnyElement (outTag : Z)
| COptional (tag : Z) | CBitString | CBitStringBytes | COctets (tag : Z) | CASN1Bytes (tag : Z).
(** What a call returns, with the integers, times and flags it writes. *)
Inductive ans :=
| AOk (ok : bool) | AInt (v : option Z) | ABool (v : option bool) | AOid (v : option (list Z)) | ATime (v : option Time)
| ATag (v : bool * Z) | APresent (v : bool * bool).
Definition some {A} (o : option A) : bool := match o with Some _ => true | None => false end.
Definition stay {A} (out : cstr) (f : A -> ans) (R : go (A * cstr)) : go (ans * cstr * cstr) := do (a, s) <- R; Ret (f a, out, s).
Definition give {A} (out : cstr) (f : A -> ans) (w : A -> option cstr) (R : go (A * cstr)) : go (ans * cstr * cstr) :=
  do (a, s) <- R; Ret (f a, match w a with Some x => x | None => out end, s).
(** The call on contents, by the functions of CbString.v: the answer, what is in *out then, and what is in *s then. *)
Definition onContents (c : call) (s out : cstr) : go (ans * cstr * cstr) :=
  match c with
  | CSkip n => stay out AOk (Skip s n)
  | CUint8 => stay out AInt (ReadUint8 s)
  | CUint16 => stay out AInt (ReadUint16 s)
  | CUint24 => stay out AInt (ReadUint24 s)
  | CUint32 => stay out AInt (ReadUint32 s)
  | CUnsigned n => stay out AInt (readUnsigned s n)
  | CEmpty => Ret (AOk (Empty s), out, s)
  | CPeek tag => do b <- PeekASN1Tag s tag; Ret (AOk b, out, s)
  | CSkipASN1 tag => stay out AOk (SkipASN1 s tag)
  | CSkipOptional tag => stay out AOk (SkipOptionalASN1 s tag)
  | CBoolean => stay out ABool (ReadASN1Boolean s)
  | CInteger k => stay out AInt (ReadASN1Integer s k)
  | CEnum => stay out AInt (ReadASN1Enum s)
  | COid => stay out AOid (ReadASN1ObjectIdentifier s)
  | CTime => stay out ATime (ReadASN1GeneralizedTime s)
  | COptInteger k tag d => stay out AInt (ReadOptionalASN1Integer s k tag d)
  | COptBoolean d => stay out ABool (ReadOptionalASN1Boolean s d)
  | CBytes n => give out (fun a => AOk (some a)) (option_map Some) (ReadBytes s n)
  | CPrefixed n => give out (fun a => AOk (some a)) (option_map Some) (readLengthPrefixed s n)
  | CASN1 tag => do (ok, out, s) <- ReadASN1 s out tag; Ret (AOk ok, out, s)
  | CElement tag => do (ok, out, s) <- ReadASN1Element s out tag; Ret (AOk ok, out, s)
  | CAny t => do (ok, out, t, s) <- ReadAnyASN1 s out t; Ret (ATag (ok, t), out, s)
  | CAnyElement t => do (ok, out, t, s) <- ReadAnyASN1Element s out t; Ret (ATag (ok, t), out, s)
  | COptional tag => do (ok, out, present, s) <- ReadOptionalASN1 s out tag; Ret (APresent (ok, present), out, s)
  | CBitString => give out (fun a => AInt (option_map snd a)) (option_map (fun x => Some (fst x))) (ReadASN1BitString s)
  | CBitStringBytes => give out (fun a => AOk (some a)) (option_map Some) (ReadASN1BitStringAsBytes s)
  | COctets tag => give out (fun a => ABool (option_map snd a)) (option_map fst) (ReadOptionalASN1OctetString s tag)
  | CASN1Bytes tag => do (ok, out, s) <- ReadASN1Bytes s out tag; Ret (AOk ok, out, s)
  end.
Definition answer {A} (f : A -> ans) (x : M A) : M ans := win a <- x; retM (f a).
(** The same call on variables: it reads from [p] and stores in [q]. *)
Definition onVars (c : call) (p q : nat) : M ans :=
  match c with
  | CSkip n => answer AOk (SkipS p n)
  | CUint8 => answer AInt (ReadUint8S p)
  | CUint16 => answer AInt (ReadUint16S p)
  | CUint24 => answer AInt (ReadUint24S p)
  | CUint32 => answer AInt (ReadUint32S p)
  | CUnsigned n => answer AInt (readUnsignedS p n)
  | CEmpty => answer AOk (EmptyS p)
  | CPeek tag => answer AOk (PeekASN1TagS p tag)
  | CSkipASN1 tag => answer AOk (SkipASN1S p tag)
  | CSkipOptional tag => answer AOk (SkipOptionalASN1S p tag)
  | CBoolean => answer ABool (ReadASN1BooleanS p)
  | CInteger k => answer AInt (ReadASN1IntegerS p k)
  | CEnum => answer AInt (ReadASN1EnumS p)
  | COid => answer AOid (ReadASN1ObjectIdentifierS p)
  | CTime => answer ATime (ReadASN1GeneralizedTimeS p)
  | COptInteger k tag d => answer AInt (ReadOptionalASN1IntegerS p k tag d)
  | COptBoolean d => answer ABool (ReadOptionalASN1BooleanS p d)
  | CBytes n => answer AOk (ReadBytesS p q n)
  | CPrefixed n => answer AOk (readLengthPrefixedS p q n)
  | CASN1 tag => answer AOk (ReadASN1S p q tag)
  | CElement tag => answer AOk (ReadASN1ElementS p q tag)
  | CAny t => answer ATag (ReadAnyASN1S p q t)
  | CAnyElement t => answer ATag (ReadAnyASN1ElementS p q t)
  | COptional tag => answer APresent (ReadOptionalASN1S p q tag)
  | CBitString => answer AInt (ReadASN1BitStringS p q)
  | CBitStringBytes => answer AOk (ReadASN1BitStringAsBytesS p q)
  | COctets tag => answer ABool (ReadOptionalASN1OctetStringS p q tag)
  | CASN1Bytes tag => answer AOk (ReadASN1BytesS p q tag)
  end.

(** What a call says on contents, and does with variables: [after] has the whole state. *)
Definition agrees (p q : nat) (st : rst) (g : gstr) (out : cstr) (R : go (ans * cstr * cstr)) (o : go (ans * rst)) : Prop :=
  match R with
  | Panic k => o = Panic k
  | Ret (a, out', s') => exists r u loc, o = Ret (a, after st p r q u loc) /\ val (r_heap st) r = s' /\ tail g r /\
      out' = match u with Some u => val (r_heap st) u | None => out end /\ forall w, u = Some (Some w) -> inside g r w
  end.

Lemma one_agrees : forall A (f : A -> ans) p q st g out R x, one p st g R (x st) -> agrees p q st g out (stay out f R) (answer f x st).
Proof.
  intros A f p q st g out R x H. unfold one, agrees, stay, answer in *. rewrite bindM_at. destruct R as [[a s']|k]; cbn [bind]; [|rewrite H; reflexivity].
  destruct H as (r & loc & -> & V & T). cbn [bind]. exists r, None, loc. split; [reflexivity|]. split; [exact V|]. split; [exact T|]. split; [reflexivity|]. intros w W. discriminate.
Qed.
Lemma three_agrees : forall A B (f : A -> ans) (ret : A -> B) (f' : B -> ans) sto p q st g out R x, (forall a, f a = f' (ret a)) ->
  three p q st g sto ret R (x st) -> agrees p q st g out (give out f sto R) (answer f' x st).
Proof.
  intros A B f ret f' sto p q st g out R x FE H. unfold three, agrees, give, answer in *. rewrite bindM_at. destruct R as [[a s']|k]; cbn [bind]; [|rewrite H; reflexivity].
  destruct H as (r & u & loc & -> & V & T & S & I). cbn [bind]. exists r, u, loc. rewrite FE. split; [reflexivity|]. split; [exact V|]. split; [exact T|].
  split; [|exact I]. rewrite S. destruct u; reflexivity.
Qed.
Lemma two_agrees : forall A (f : A -> ans) p q st g out R x, two p q st g out R (x st) -> agrees p q st g out (do (a, out, s) <- R; Ret (f a, out, s)) (answer f x st).
Proof.
  intros A f p q st g out R x H. unfold two, agrees, answer in *. rewrite bindM_at. destruct R as [[[a o] s']|k]; cbn [bind]; [|rewrite H; reflexivity].
  destruct H as (r & u & loc & -> & V & T & U). cbn [bind]. exists r, (option_map Some u), loc. split; [reflexivity|]. split; [exact V|]. split; [exact T|].
  destruct u as [w|]; cbn [option_map].
  - destruct U as [U1 U2]. split; [exact U1|]. intros x' X. injection X as <-. exact U2.
  - split; [exact U|]. intros w W. discriminate.
Qed.
Lemma read_three : forall p q st g R o,
  match R with
  | Panic k => o = Panic k
  | Ret (v, s') => exists r u, o = Ret (match v with Some _ => true | None => false end, after st p r q (option_map Some u) []) /\
      val (r_heap st) r = s' /\ tail g r /\ v = option_map (content (r_heap st)) u /\ match u with Some w => inside g r w | None => True end
  end -> three p q st g (option_map Some) some R o.
Proof.
  intros p q st g R o H. unfold three. destruct R as [[v s']|k]; [|exact H]. destruct H as (r & u & -> & V & T & -> & I).
  exists r, (option_map Some u), []. split; [destruct u; reflexivity|]. split; [exact V|]. split; [exact T|]. destruct u as [w|]; cbn [option_map].
  - split; [reflexivity|]. intros x X. injection X as <-. exact I.
  - split; [reflexivity|]. intros x X. discriminate.
Qed.
(** C114: a call does to contents what it does by the functions of CbString.v. The memory stays as it is, and so do all variables but *s and *out.
    What is left in *s is the end of what was there. A stored window is a part of what was in *s, up to there; nothing is copied. *)
Theorem C114_same : forall c p q st g out, nth_error (r_vars st) p = Some g -> fits g -> (q < List.length (r_vars st))%nat ->
  agrees p q st g out (onContents c (val (r_heap st) g) out) (onVars c p q st).
Proof.
  intros c p q st g out E F Q.
  assert (STAY : forall b, agrees p q st g out (Ret (AOk b, out, val (r_heap st) g)) (Ret (AOk b, st))).
  { intros b. exists g, None, []. split.
    { unfold after. rewrite upd_id by exact E. rewrite app_nil_r. destruct st; reflexivity. }
    split; [reflexivity|]. split; [apply tail_refl; exact F|]. split; [reflexivity|]. intros w W. discriminate. }
  destruct c; cbn [onContents onVars].
  - apply one_agrees, SkipS_sim; assumption.
  - apply one_agrees. exact (byteS_sim p 1 _ st g E F).
  - apply one_agrees. pose proof (byteS_sim p 2 (fun v => do a <- go_index v 0; do b <- go_index v 1; Ret (Z.lor (u16 (Z.shiftl a 8)) b)) st g E F) as H.
    unfold byteV in H. unfold ReadUint16. destruct (read _ 2) as [[[v|] s']|k]; cbn [bind] in *; try exact H.
    destruct (go_index v 0); cbn [bind] in *; [|exact H]. destruct (go_index v 1); exact H.
  - apply one_agrees. pose proof (byteS_sim p 3 (fun v => do a <- go_index v 0; do b <- go_index v 1; do c <- go_index v 2;
      Ret (Z.lor (Z.lor (u32 (Z.shiftl a 16)) (u32 (Z.shiftl b 8))) c)) st g E F) as H.
    unfold byteV in H. unfold ReadUint24. destruct (read _ 3) as [[[v|] s']|k]; cbn [bind] in *; try exact H.
    destruct (go_index v 0); cbn [bind] in *; [|exact H]. destruct (go_index v 1); cbn [bind] in *; [|exact H]. destruct (go_index v 2); exact H.
  - apply one_agrees. pose proof (byteS_sim p 4 (fun v => do a <- go_index v 0; do b <- go_index v 1; do c <- go_index v 2; do d <- go_index v 3;
      Ret (Z.lor (Z.lor (Z.lor (u32 (Z.shiftl a 24)) (u32 (Z.shiftl b 16))) (u32 (Z.shiftl c 8))) d)) st g E F) as H.
    unfold byteV in H. unfold ReadUint32. destruct (read _ 4) as [[[v|] s']|k]; cbn [bind] in *; try exact H.
    destruct (go_index v 0); cbn [bind] in *; [|exact H]. destruct (go_index v 1); cbn [bind] in *; [|exact H]. destruct (go_index v 2); cbn [bind] in *; [|exact H]. destruct (go_index v 3); exact H.
  - apply one_agrees. exact (byteS_sim p n (fun v => Ret (acc32 v)) st g E F).
  - unfold answer. rewrite bindM_at, (EmptyS_sim p st g E F). apply STAY.
  - unfold answer. rewrite bindM_at, (PeekASN1TagS_sim p tag st g E F). destruct (PeekASN1Tag _ _) as [b|k]; cbn [bind]; [apply STAY|reflexivity].
  - apply one_agrees, SkipASN1S_sim; assumption.
  - apply one_agrees, SkipOptionalASN1S_sim; assumption.
  - apply one_agrees, ReadASN1BooleanS_sim; assumption.
  - apply one_agrees, ReadASN1IntegerS_sim; assumption.
  - apply one_agrees, ReadASN1EnumS_sim; assumption.
  - apply one_agrees, ReadASN1ObjectIdentifierS_sim; assumption.
  - apply one_agrees. unfold ReadASN1GeneralizedTimeS. match goal with |- context[valueS p GeneralizedTime ?f st] => pose proof (valueS_sim _ p GeneralizedTime f st g E F) as H end.
    unfold valueV in H. unfold ReadASN1GeneralizedTime. destruct (ReadASN1 _ _ _) as [[[ok o] s']|k]; cbn [bind] in *; [|exact H]. destruct ok; exact H.
  - apply one_agrees, ReadOptionalASN1IntegerS_sim; assumption.
  - apply one_agrees, ReadOptionalASN1BooleanS_sim; assumption.
  - apply (three_agrees _ _ _ some); [reflexivity|]. apply read_three. pose proof (ReadBytesS_sim p q n st g E F Q) as H.
    destruct (ReadBytes _ _) as [[v s']|k]; [|exact H]. destruct H as (r & u & A & B & T & D & I). exists r, u. repeat split; try assumption. destruct u; [exact I|exact Logic.I].
  - apply (three_agrees _ _ _ some); [reflexivity|]. apply read_three. apply readLengthPrefixedS_sim; assumption.
  - apply two_agrees, ReadASN1S_sim; assumption.
  - apply two_agrees, ReadASN1ElementS_sim; assumption.
  - pose proof (two_agrees _ ATag _ _ _ _ _ _ (ReadAnyASN1S p q outTag) (readASN1S_sim p q out outTag true st g E F Q)) as H. unfold anyV, ReadAnyASN1 in *.
    destruct (readASN1 _ _ _ _) as [[[[ok o] t] s']|k]; exact H.
  - pose proof (two_agrees _ ATag _ _ _ _ _ _ (ReadAnyASN1ElementS p q outTag) (readASN1S_sim p q out outTag false st g E F Q)) as H. unfold anyV, ReadAnyASN1Element in *.
    destruct (readASN1 _ _ _ _) as [[[[ok o] t] s']|k]; exact H.
  - pose proof (two_agrees _ APresent _ _ _ _ _ _ (ReadOptionalASN1S p q tag) (ReadOptionalASN1S_sim p q out tag st g E F Q)) as H. unfold optV in *.
    destruct (ReadOptionalASN1 _ _ _) as [[[[ok o] t] s']|k]; exact H.
  - apply (three_agrees _ _ _ (option_map snd)); [reflexivity|]. apply ReadASN1BitStringS_sim; assumption.
  - apply (three_agrees _ _ _ some); [reflexivity|]. apply ReadASN1BitStringAsBytesS_sim; assumption.
  - apply (three_agrees _ _ _ (option_map snd)); [reflexivity|]. apply ReadOptionalASN1OctetStringS_sim; assumption.
  - apply two_agrees, ReadASN1S_sim; assumption.
Qed.
(** The variables after a call: [p] has what is left, unless the call stored something in it; [q] has what was stored. *)
Lemma after_vars : forall st p r q u loc i, (p < List.length (r_vars st))%nat -> (q < List.length (r_vars st))%nat -> (i < List.length (r_vars st))%nat ->
  nth_error (r_vars (after st p r q u loc)) i =
  match u with
  | Some w => if Nat.eqb i q then Some w else if Nat.eqb i p then Some r else nth_error (r_vars st) i
  | None => if Nat.eqb i p then Some r else nth_error (r_vars st) i
  end.
Proof.
  intros st p r q u loc i P Q I. unfold after. cbn [r_vars]. destruct u as [w|].
  - rewrite nth_error_app1 by (rewrite !length_upd; exact I). rewrite nth_upd by (rewrite length_upd; exact Q). rewrite (Nat.eqb_sym q i).
    destruct (Nat.eqb i q); [reflexivity|]. rewrite nth_upd by exact P. rewrite (Nat.eqb_sym p i). reflexivity.
  - rewrite nth_error_app1 by (rewrite !length_upd; exact I). rewrite nth_upd by exact P. rewrite (Nat.eqb_sym p i). reflexivity.
Qed.

(** * Many calls on one String *)

(** Whether a call with this answer has stored a window. *)
Definition stores (c : call) (a : ans) : bool :=
  match c, a with
  | (CBytes _ | CPrefixed _ | CASN1 _ | CElement _ | CBitStringBytes | CASN1Bytes _), AOk ok => ok
  | (CAny _ | CAnyElement _), ATag (ok, _) => ok
  | COptional _, APresent (ok, present) => ok && present
  | CBitString, AInt (Some _) => true
  | COctets _, ABool (Some present) => present
  | _, _ => false
  end.
(** The calls of [l] on [p], one after the other. The result has the windows that they stored. *)
Fixpoint reads (p : nat) (l : list (call * nat)) : M (list gstr) :=
  match l with
  | [] => retM []
  | (c, q) :: l =>
      win a <- onVars c p q;
      win g <- getv q;
      win gs <- reads p l;
      retM (if stores c a then g :: gs else gs)
  end.

Lemma readASN1_stores : forall s t sk out' t' s', readASN1 s None t sk = Ret (true, out', t', s') -> out' <> None.
Proof.
  intros s t sk out' t' s' H. rewrite readASN1_hdr in H. destruct (slen s <? 2); [discriminate|]. destruct (go_index _ 0) as [tag|]; cbn [bind] in H; [|discriminate].
  destruct (go_index _ 1) as [lb|]; cbn [bind] in H; [|discriminate]. destruct (_ =? 31); [discriminate|]. destruct (hdrV _ _) as [[[len hl]|]|]; cbn [bind] in H; try discriminate.
  destruct (ReadBytes s len) as [[[v|] s2]|]; cbn [bind] in H; try discriminate. destruct sk; [|injection H as <- _ _; discriminate].
  unfold Skip, read in H. destruct (_ <? hl); [discriminate|]. destruct (hl <? 0); [discriminate|]. cbn [bind] in H. injection H as <- _ _. discriminate.
Qed.
Lemma ReadASN1_stores : forall s tag out' s', ReadASN1 s None tag = Ret (true, out', s') -> out' <> None.
Proof.
  intros s tag out' s' H. unfold ReadASN1, ReadAnyASN1 in H. destruct (readASN1 s None 0 true) as [[[[ok o] t] s2]|k] eqn:E; cbn [bind] in H; [|discriminate].
  destruct ok; cbn [negb orb] in H; [|discriminate]. destruct (negb (t =? tag)); [discriminate|]. injection H as <- _. eapply readASN1_stores. exact E.
Qed.
Lemma stores_some : forall c s a out' s', onContents c s None = Ret (a, out', s') -> stores c a = true -> out' <> None.
Proof.
  intros c s a out' s' H S. destruct c; cbn [onContents stores] in *; unfold stay, give in *; try discriminate; try (destruct a; discriminate).
  - destruct (ReadBytes s n) as [[[v|] s2]|]; cbn [bind some option_map] in H; try discriminate; injection H as <- <- _; discriminate.
  - destruct (readLengthPrefixed s lenLen) as [[[v|] s2]|]; cbn [bind some option_map] in H; try discriminate; injection H as <- <- _; discriminate.
  - destruct (ReadASN1 s None tag) as [[[ok o] s2]|k] eqn:E; cbn [bind] in H; [|discriminate]. injection H as <- <- _. cbn in S. subst ok. eapply ReadASN1_stores. exact E.
  - destruct (ReadASN1Element s None tag) as [[[ok o] s2]|k] eqn:E; cbn [bind] in H; [|discriminate]. injection H as <- <- _. cbn in S. subst ok.
    unfold ReadASN1Element, ReadAnyASN1Element in E. destruct (readASN1 s None 0 false) as [[[[ok o'] t] s3]|k] eqn:E'; cbn [bind] in E; [|discriminate].
    destruct ok; cbn [negb orb] in E; [|discriminate]. destruct (negb (t =? tag)); [discriminate|]. injection E as <- _. eapply readASN1_stores. exact E'.
  - unfold ReadAnyASN1 in H. destruct (readASN1 s None outTag true) as [[[[ok o] t] s2]|k] eqn:E; cbn [bind] in H; [|discriminate]. injection H as <- <- _. cbn in S. subst ok. eapply readASN1_stores. exact E.
  - unfold ReadAnyASN1Element in H. destruct (readASN1 s None outTag false) as [[[[ok o] t] s2]|k] eqn:E; cbn [bind] in H; [|discriminate]. injection H as <- <- _. cbn in S. subst ok. eapply readASN1_stores. exact E.
  - destruct (ReadOptionalASN1 s None tag) as [[[[ok o] t] s2]|k] eqn:E; cbn [bind] in H; [|discriminate]. injection H as <- <- _. cbn in S. apply andb_true_iff in S. destruct S as [-> ->].
    unfold ReadOptionalASN1 in E. destruct (PeekASN1Tag s tag) as [[|]|]; cbn [bind] in E; try discriminate.
    destruct (ReadASN1 s None tag) as [[[ok o'] s3]|k] eqn:E'; cbn [bind] in E; [|discriminate]. injection E as -> <- _. eapply ReadASN1_stores. exact E'.
  - destruct (ReadASN1BitString s) as [[[v|] s2]|]; cbn [bind option_map] in H; try discriminate; injection H as <- <- _; cbn in S; discriminate.
  - destruct (ReadASN1BitStringAsBytes s) as [[[v|] s2]|]; cbn [bind option_map] in H; try discriminate; injection H as <- <- _; cbn in S; discriminate.
  - destruct (ReadOptionalASN1OctetString s tag) as [[[[o pr]|] s2]|] eqn:E; cbn [bind option_map fst snd] in H; try discriminate; injection H as <- <- _; cbn in S; [|discriminate]. subst pr.
    unfold ReadOptionalASN1OctetString in E. destruct (ReadOptionalASN1 s None tag) as [[[[ok o'] pr] s3]|k]; cbn [bind] in E; [|discriminate]. destruct ok; cbn [negb] in E; [|discriminate].
    destruct pr; [|discriminate]. destruct (ReadASN1 o' None OCTET_STRING) as [[[ok o2] s4]|k] eqn:E'; cbn [bind] in E; [|discriminate]. destruct ok; cbn [negb orb] in E; [|discriminate].
    destruct (negb (Empty s4)); [discriminate|]. injection E as <- _. eapply ReadASN1_stores. exact E'.
  - unfold ReadASN1Bytes in H. destruct (ReadASN1 s None tag) as [[[ok o] s2]|k] eqn:E; cbn [bind] in H; [|discriminate]. injection H as <- <- _. cbn in S. subst ok. eapply ReadASN1_stores. exact E.
Qed.
(** A call that answers, in full. *)
Lemma call_full : forall c p q st g a st', nth_error (r_vars st) p = Some g -> fits g -> (q < List.length (r_vars st))%nat -> onVars c p q st = Ret (a, st') ->
  exists r u loc, st' = after st p r q u loc /\ tail g r /\ (forall w, u = Some (Some w) -> inside g r w) /\ (stores c a = true -> exists w, u = Some (Some w)).
Proof.
  intros c p q st g a st' E F Q H. pose proof (C114_same c p q st g None E F Q) as A. unfold agrees in A.
  destruct (onContents c (val (r_heap st) g) None) as [[[a' out'] s']|k] eqn:R; [|congruence].
  destruct A as (r & u & loc & A & V & T & O & I). rewrite A in H. injection H as <- <-. exists r, u, loc. split; [reflexivity|]. split; [exact T|]. split; [exact I|].
  intros S. pose proof (stores_some _ _ _ _ _ R S) as N. destruct u as [[w|]|]; [exists w; reflexivity|exfalso; apply N; exact O|exfalso; apply N; exact O].
Qed.

(** [w] lies in [g] and ends before [r] starts, or there. *)
Definition between (g r : gstr) (w : slice) : Prop :=
  match g, r with
  | Some s, Some t => s_arr w = s_arr s /\ s_off s <= s_off w /\ 0 <= s_len w /\ s_off w + s_len w <= s_off t
  | _, _ => False
  end.
Definition precedes (v w : slice) : Prop := s_arr v = s_arr w /\ s_off v + s_len v <= s_off w.
Lemma inside_between : forall g r w, inside g r w -> between g r w.
Proof. intros [s|] [t|] w H; cbn in *; try tauto. destruct H as (a & n & A & N & E & ->). cbn [takeS dropS s_arr s_off s_len]. repeat split; lia. Qed.
Lemma between_tail : forall g r r' w, between g r w -> tail r r' -> between g r' w.
Proof. intros [s|] [t|] [u|] w H T; cbn in *; try tauto. destruct T as (k & K & ->). cbn [dropS s_off]. repeat split; try tauto; lia. Qed.
Lemma tail_between : forall g g' r w, tail g g' -> between g' r w -> between g r w.
Proof. intros [s|] [t|] [u|] w T H; cbn in *; try tauto. destruct T as (k & K & ->). cbn [dropS s_arr s_off] in H. repeat split; try tauto; lia. Qed.
(** C114: over any sequence of calls on one String, the memory stays as it is; all stored windows lie in what the String was, one behind the other, and
    before what is left of it. So no two of them share a byte, and none shares one with what is still to be read. *)
Theorem C114_windows : forall l p st g gs st', nth_error (r_vars st) p = Some g -> fits g ->
  Forall (fun cq => snd cq <> p /\ (snd cq < List.length (r_vars st))%nat) l -> reads p l st = Ret (gs, st') ->
  exists r ws, gs = map Some ws /\ r_heap st' = r_heap st /\ nth_error (r_vars st') p = Some r /\ tail g r /\
    Forall (between g r) ws /\ ForallOrdPairs precedes ws.
Proof.
  induction l as [|[c q] l IH]; intros p st g gs st' E F Q H; cbn [reads] in H.
  - unfold retM in H. injection H as <- <-. exists g, []. repeat split; [exact E|apply tail_refl; exact F|constructor|constructor].
  - rewrite bindM_at in H. apply Forall_cons_iff in Q. destruct Q as [[Q1 Q2] Q]. cbn [snd] in *.
    destruct (onVars c p q st) as [[a st1]|k] eqn:H1; [|discriminate]. cbn [bind] in H.
    destruct (call_full c p q st g a st1 E F Q2 H1) as (r & u & loc & -> & T & I & S).
    assert (P : (p < List.length (r_vars st))%nat) by (eapply nth_lt; exact E).
    assert (E1 : nth_error (r_vars (after st p r q u loc)) p = Some r).
    { rewrite after_vars by assumption. rewrite (proj2 (Nat.eqb_neq p q)) by congruence. rewrite Nat.eqb_refl. destruct u; reflexivity. }
    rewrite bindM_at in H. unfold getv at 1 in H. destruct (nth_error (r_vars (after st p r q u loc)) q) as [gq|] eqn:EQ; [|discriminate]. cbn [bind] in H.
    rewrite bindM_at in H. destruct (reads p l (after st p r q u loc)) as [[gs2 st2]|k] eqn:H2; [|discriminate]. cbn [bind] in H. unfold retM in H. injection H as <- <-.
    assert (Q' : Forall (fun cq : call * nat => snd cq <> p /\ (snd cq < List.length (r_vars (after st p r q u loc)))%nat) l).
    { eapply Forall_impl; [|exact Q]. intros [c' q'] [X Y]. split; [exact X|]. unfold after. cbn [r_vars]. rewrite app_length. destruct u; rewrite !length_upd; cbn [snd] in *; lia. }
    destruct (IH p _ r gs2 st2 E1 (tail_fits _ _ F T) Q' H2) as (r2 & ws & -> & HH & E2 & T2 & B & D).
    assert (B' : Forall (between g r2) ws) by (eapply Forall_impl; [|exact B]; intros w W; eapply tail_between; eassumption).
    destruct (stores c a) eqn:ST.
    + destruct (S eq_refl) as [w ->]. specialize (I w eq_refl). rewrite after_vars, Nat.eqb_refl in EQ by assumption. injection EQ as <-.
      exists r2, (w :: ws). split; [reflexivity|]. split; [exact HH|]. split; [exact E2|]. split; [eapply tail_trans; eassumption|]. split.
      * constructor; [|exact B']. eapply between_tail; [apply inside_between; exact I|exact T2].
      * constructor; [|exact D]. eapply Forall_impl; [|exact B]. intros v V. destruct g as [s|], r as [t|], r2 as [t2|]; cbn in I, V, T; try tauto.
        destruct T as (k & K & ->). destruct I as (a' & n & A1 & A2 & A3 & ->). destruct V as (V1 & V2 & V3 & V4). cbn [dropS s_arr s_off] in *. unfold precedes. cbn [takeS dropS s_arr s_off s_len]. split; [congruence|lia].
    + exists r2, ws. split; [reflexivity|]. split; [exact HH|]. split; [exact E2|]. split; [eapply tail_trans; eassumption|]. split; assumption.
Qed.

Lemma store_content : forall h a o d s, s_arr s <> a \/ o + zlen d <= s_off s \/ s_off s + s_len s <= o -> content (store h a o d) s = content h s.
Proof.
  intros h a o d s H. unfold content. apply map_ext_in. intros i I. apply in_seq in I. apply store_out. destruct H as [H|H]; [left; exact H|right]. lia.
Qed.
Lemma ordered_pairs : forall ws i j v w, ForallOrdPairs precedes ws -> nth_error ws i = Some v -> nth_error ws j = Some w -> (i < j)%nat -> precedes v w.
Proof.
  induction ws as [|x ws IH]; intros i j v w H I J L; [destruct i; discriminate|]. inversion H as [|? ? H1 H2]; subst. destruct j as [|j]; [lia|]. cbn in J.
  destruct i as [|i]; cbn in I; [|apply (IH i j); auto; lia]. injection I as <-. rewrite Forall_forall in H1. apply H1. eapply nth_error_In. exact J.
Qed.
(** C114: whoever writes within one window that the calls stored changes neither another one nor what is left to read. *)
Theorem C114_apart : forall l p st g gs st' i v o d, nth_error (r_vars st) p = Some g -> fits g ->
  Forall (fun cq => snd cq <> p /\ (snd cq < List.length (r_vars st))%nat) l -> reads p l st = Ret (gs, st') ->
  nth_error gs i = Some (Some v) -> s_off v <= o -> o + zlen d <= s_off v + s_len v ->
  let h := store (r_heap st') (s_arr v) o d in
  (forall j w, j <> i -> nth_error gs j = Some w -> val h w = val (r_heap st') w) /\
  (forall r, nth_error (r_vars st') p = Some r -> val h r = val (r_heap st') r).
Proof.
  intros l p st g gs st' i v o d E F Q H I O1 O2. cbv zeta. destruct (C114_windows l p st g gs st' E F Q H) as (r & ws & -> & HH & E' & T & B & D).
  assert (NV : nth_error ws i = Some v).
  { rewrite nth_error_map in I. destruct (nth_error ws i) as [x|]; cbn in I; [|discriminate]. congruence. }
  split.
  - intros j w J W. rewrite nth_error_map in W. destruct (nth_error ws j) as [x|] eqn:NX; cbn in W; [|discriminate]. injection W as <-. cbn [val option_map]. f_equal. apply store_content.
    destruct (Nat.lt_ge_cases i j) as [L|L].
    + pose proof (ordered_pairs ws i j v x D NV NX L) as [P1 P2]. right. left. lia.
    + pose proof (ordered_pairs ws j i x v D NX NV ltac:(lia)) as [P1 P2]. right. right. lia.
  - intros r' R. rewrite E' in R. injection R as <-. rewrite Forall_forall in B. specialize (B v (nth_error_In _ _ NV)).
    destruct g as [s|], r as [t|]; cbn in B, T; try contradiction. cbn [val option_map]. f_equal. apply store_content. right. left. lia.
Qed.

Lemma get_skipn : forall m k i, 0 <= k -> 0 <= i -> get (skipn (Z.to_nat k) m) i = get m (k + i).
Proof.
  intros m k i K I. destruct (Z_le_gt_dec (zlen m) k) as [L|L].
  - rewrite skipn_all2 by (unfold zlen in L; lia). rewrite !get_beyond by (rewrite ?zlen_nil; lia). reflexivity.
  - pose proof (get_app2 (firstn (Z.to_nat k) m) (skipn (Z.to_nat k) m) (k + i)) as G. rewrite firstn_skipn in G. rewrite zlen_firstn in G by (unfold zlen in L; lia).
    rewrite G by lia. f_equal. lia.
Qed.
(** C114: the capacity of a stored window reaches over what is left to read. Whoever appends to the window overwrites that: nothing is allocated, and the
    String then reads the appended bytes. *)
Theorem C114_append : forall grow c p q st g a st' w d t, nth_error (r_vars st) p = Some g -> fits g -> (q < List.length (r_vars st))%nat -> p <> q ->
  onVars c p q st = Ret (a, st') -> stores c a = true -> nth_error (r_vars st') q = Some (Some w) -> nth_error (r_vars st') p = Some (Some t) -> zlen d <= s_len t ->
  let (h, w') := appendM grow (r_heap st') w d in
  narr h = narr (r_heap st') /\ content h w' = content (r_heap st') w ++ d /\ content h t = d ++ skipn (Z.to_nat (zlen d)) (content (r_heap st') t).
Proof.
  intros grow c p q st g a st' w d t E F Q NE H S W R D. destruct (call_full c p q st g a st' E F Q H) as (r & u & loc & -> & T & I & ST).
  assert (P : (p < List.length (r_vars st))%nat) by (eapply nth_lt; exact E).
  destruct (ST S) as [w0 ->]. specialize (I w0 eq_refl). rewrite after_vars, Nat.eqb_refl in W by assumption. injection W as ->.
  rewrite after_vars in R by assumption. rewrite (proj2 (Nat.eqb_neq p q)) in R by exact NE. rewrite Nat.eqb_refl in R. injection R as ->.
  destruct g as [s|]; cbn in T, I; [|contradiction]. cbn [fits] in F. destruct T as (k & K & ->). destruct I as (x & n & X & N & XE & ->). cbn [dropS s_off s_len] in XE, D.
  pose proof (zlen_nonneg _ d) as ZD. unfold appendM. cbn [takeS dropS s_len s_cap s_arr s_off]. rewrite (proj2 (Z.leb_le (n + zlen d) (s_cap s - x))) by lia.
  set (h0 := r_heap (after st p (Some (dropS s k)) q (Some (Some (takeS (dropS s x) n))) loc)). split; [reflexivity|].
  replace (s_off s + x + n) with (s_off s + k) by lia. split.
  - apply get_ext; [rewrite zlen_app, !zlen_content by (cbn [takeS setLen s_len]; lia); reflexivity|]. intros i I. rewrite zlen_content in I by (cbn [setLen s_len]; lia). cbn [setLen s_len] in I.
    rewrite get_content by (cbn [setLen s_len]; lia). cbn [takeS dropS setLen s_arr s_off]. destruct (Z_lt_ge_dec i n) as [L|L].
    + rewrite get_app1 by (rewrite zlen_content; cbn [takeS s_len]; lia). rewrite get_content by (cbn [takeS s_len]; lia). apply store_out. right. left. cbn [takeS dropS s_off]. lia.
    + rewrite get_app2 by (rewrite zlen_content; cbn [takeS s_len]; lia). rewrite zlen_content by (cbn [takeS s_len]; lia). cbn [takeS s_len]. rewrite store_in by lia. cbn [takeS dropS s_off]. f_equal. lia.
  - assert (LS : zlen (skipn (Z.to_nat (zlen d)) (content h0 (dropS s k))) = s_len s - k - zlen d).
    { rewrite zlen_skipn by (unfold content; rewrite map_length, seq_length; cbn [dropS s_len]; unfold zlen in *; lia). rewrite zlen_content by (cbn [dropS s_len]; lia). cbn [dropS s_len]. lia. }
    apply get_ext; [rewrite zlen_app, LS, zlen_content by (cbn [dropS s_len]; lia); cbn [dropS s_len]; lia|]. intros i I. rewrite zlen_content in I by (cbn [dropS s_len]; lia). cbn [dropS s_len] in I.
    rewrite get_content by (cbn [dropS s_len]; lia). cbn [dropS s_arr s_off]. destruct (Z_lt_ge_dec i (zlen d)) as [L|L].
    + rewrite get_app1 by lia. rewrite store_in by lia. f_equal. lia.
    + rewrite get_app2 by lia. rewrite store_out by (right; right; lia). rewrite get_skipn by lia. rewrite get_content by (cbn [dropS s_len]; lia). cbn [dropS s_arr s_off]. f_equal. lia.
Qed.

(** * CopyBytes *)

Definition apartS (a b : slice) : Prop := s_arr a <> s_arr b \/ s_off a + s_len a <= s_off b \/ s_off b + s_len b <= s_off a.
(** C114: CopyBytes reads len(out) bytes and puts them into out, also when out lies in the String itself; no other cell changes. What is left is
    what CbString.v says, if it does not share memory with out. *)
Theorem C114_copy : forall p out st g, nth_error (r_vars st) p = Some g -> fits g -> 0 <= s_len out ->
  exists ok outc s', CopyBytes (val (r_heap st) g) (content (r_heap st) out) = Ret (ok, outc, s') /\
  exists h r, CopyBytesS p out st = Ret (ok, mkR h (upd (r_vars st) p r)) /\ tail g r /\ content h out = outc /\
    (forall a i, a <> s_arr out \/ i < s_off out \/ s_off out + s_len out <= i -> cells h a i = cells (r_heap st) a i) /\
    val (r_heap st) r = s' /\ ((forall t, r = Some t -> apartS t out) -> val h r = s').
Proof.
  intros p out st g E F L. unfold CopyBytes, CopyBytesS. rewrite bindM_at. cbv zeta. rewrite zlen_content by exact L.
  pose proof (readS_sim p (s_len out) st g E F) as RS. destruct (read (val (r_heap st) g) (s_len out)) as [[v s']|k] eqn:ER.
  2:{ exfalso. unfold read in ER. destruct (_ <? s_len out); [discriminate|]. destruct (Z.ltb_spec (s_len out) 0); [lia|]. destruct (val _ g); discriminate. }
  destruct RS as (w & r & -> & <- & <- & T & W). cbn [bind]. destruct w as [w|]; cbn [val option_map].
  2:{ eexists _, _, _. split; [reflexivity|]. exists (r_heap st), r. split; [reflexivity|]. repeat split; auto. }
  assert (WL : s_len w = s_len out).
  { pose proof (f_equal (fun x => match x with Ret (Some l, _) => zlen l | _ => -1 end) ER) as X. cbn beta iota in X. cbn [val option_map] in X.
    unfold read in X. destruct (Z.ltb_spec (slen (val (r_heap st) g)) (s_len out)) as [Y|Y]; [exfalso; unfold read in ER; rewrite (proj2 (Z.ltb_lt _ _) Y) in ER; discriminate|].
    destruct (Z.ltb_spec (s_len out) 0); [lia|]. destruct g as [s|]; [|cbn in ER; unfold read in ER; destruct (_ <? _); [discriminate|]; destruct (_ <? 0); discriminate].
    cbn [val option_map] in X. unfold slen in Y. cbn [val option_map contents] in Y. rewrite zlen_firstn in X by (unfold zlen in Y; lia).
    assert (0 <= s_len w) by (pose proof (inside_fits _ _ _ F T W) as FW; cbn in FW; lia). rewrite zlen_content in X by lia. lia. }
  assert (LO : List.length (content (r_heap st) out) = Z.to_nat (s_len out)) by (unfold content; rewrite map_length, seq_length; reflexivity).
  assert (LW : List.length (content (r_heap st) w) = Z.to_nat (s_len out)) by (unfold content; rewrite map_length, seq_length, WL; reflexivity).
  rewrite LO, LW, Nat.min_id. rewrite skipn_all2 by lia. rewrite app_nil_r, firstn_all2 by lia. rewrite WL, Z.min_id, Z2Nat.id by exact L.
  assert (SW : setLen w (s_len w) = w) by (destruct w; reflexivity).
  eexists _, _, _. split; [reflexivity|]. cbn [r_heap r_vars]. rewrite <- WL, SW, WL. exists (store (r_heap st) (s_arr out) (s_off out) (content (r_heap st) w)), r.
  assert (ZW : zlen (content (r_heap st) w) = s_len out) by (unfold zlen; rewrite LW; lia).
  rewrite !Z.eqb_refl. split; [reflexivity|]. split; [exact T|]. split.
  { apply get_ext; [rewrite !zlen_content; lia|]. intros i I. rewrite zlen_content in I by lia. rewrite get_content by lia. rewrite store_in by lia. f_equal. lia. }
  split. { intros a i A. apply store_out. rewrite ZW. exact A. }
  split; [reflexivity|]. intros A. destruct r as [t|]; [|reflexivity]. cbn [val option_map]. f_equal. apply store_content. specialize (A t eq_refl). unfold apartS in A. rewrite ZW. lia.
Qed.

(** * Examples *)

(** SEQUENCE { OCTET STRING 'ab', INTEGER 5 }, 1, 2, 3 *)
Definition memD : heap := mkHeap (fun _ i => nth (Z.to_nat i) [48; 7; 4; 2; 97; 98; 2; 1; 5; 1; 2; 3] 0) 1 [] [] [].
Definition stD : rst := mkR memD [Some (mkSl 0 0 12 12); None; None; None].
Definition look {A} (o : go (A * rst)) : option (A * list gstr) := match o with Ret (a, st) => Some (a, r_vars st) | Panic _ => None end.
Example C114_sees_same : look (onVars (CASN1 48) 0 1 stD) = Some (AOk true, [Some (mkSl 0 9 3 3); Some (mkSl 0 2 7 10); None; None]).
Proof. vm_compute. reflexivity. Qed.
Example C114_sees_same_meets : nth_error (r_vars stD) 0 = Some (Some (mkSl 0 0 12 12)) /\ fits (Some (mkSl 0 0 12 12)) /\ (1 < List.length (r_vars stD))%nat.
Proof. cbn. repeat split; lia. Qed.
(** With the same variable for both, it ends with the contents of the element, and the rest is lost. *)
Example C114_sees_in_place : look (onVars (CASN1 48) 0 0 stD) = Some (AOk true, [Some (mkSl 0 2 7 10); None; None; None]).
Proof. vm_compute. reflexivity. Qed.
Example C114_sees_element : look (onVars (CElement 48) 0 2 stD) = Some (AOk true, [Some (mkSl 0 9 3 3); None; Some (mkSl 0 0 9 12); None]).
Proof. vm_compute. reflexivity. Qed.
Definition readsD := reads 0 [(CBytes 2, 1%nat); (CASN1 4, 2%nat); (CInteger KBig, 1%nat); (CUint8, 3%nat); (CBytes 1, 3%nat)].
Example C114_sees_windows : match readsD stD with Ret (gs, st) => gs = [Some (mkSl 0 0 2 12); Some (mkSl 0 4 2 8); Some (mkSl 0 10 1 2)] /\
  nth_error (r_vars st) 0 = Some (Some (mkSl 0 11 1 1)) | Panic _ => False end.
Proof. vm_compute. split; reflexivity. Qed.
Example C114_sees_windows_meets : Forall (fun cq : call * nat => snd cq <> 0%nat /\ (snd cq < List.length (r_vars stD))%nat)
  [(CBytes 2, 1%nat); (CASN1 4, 2%nat); (CInteger KBig, 1%nat); (CUint8, 3%nat); (CBytes 1, 3%nat)].
Proof. repeat constructor; cbn; lia. Qed.
(** A write to the octets 'ab' is seen in no other window. *)
Example C114_sees_apart : match readsD stD with Ret (gs, st) =>
  let h := store (r_heap st) 0 4 [120; 121] in map (val h) gs = [Some [48; 7]; Some [120; 121]; Some [2]] | Panic _ => False end.
Proof. vm_compute. reflexivity. Qed.
Definition growD (_ n : Z) : Z := n.
Example C114_sees_append : match onVars (CBytes 9) 0 1 stD with
  | Ret (a, st) => a = AOk true /\ match r_vars st with Some t :: Some w :: _ =>
      let (h, w') := appendM growD (r_heap st) w [7; 8] in content h w' = [48; 7; 4; 2; 97; 98; 2; 1; 5; 7; 8] /\ content h t = [7; 8; 3] | _ => False end
  | Panic _ => False end.
Proof. vm_compute. repeat split. Qed.
Example C114_sees_copy : match CopyBytesS 0 (mkSl 1 0 3 3) stD with
  | Ret (ok, st) => ok = true /\ content (r_heap st) (mkSl 1 0 3 3) = [48; 7; 4] /\ nth_error (r_vars st) 0 = Some (Some (mkSl 0 3 9 9)) | Panic _ => False end.
Proof. vm_compute. repeat split. Qed.

Definition stateOf {A} (o : go (A * rst)) : rst := match o with Ret (_, st) => st | Panic _ => stD end.
Definition ansOf {A} (d : A) (o : go (A * rst)) : A := match o with Ret (a, _) => a | Panic _ => d end.
Lemma returns : forall A (o : go (A * rst)) d, (match o with Ret _ => true | Panic _ => false end) = true -> o = Ret (ansOf d o, stateOf o).
Proof. intros A [[a st]|k] d H; [reflexivity|discriminate]. Qed.
(** C114: it is not so that what a call stored stays as it is when one appends to what an earlier call stored. *)
Theorem C114_independent_refuted : exists p l st st' v w d, reads p l st = Ret ([Some v; Some w], st') /\
  let (h, _) := appendM growD (r_heap st') v d in content h w <> content (r_heap st') w.
Proof.
  pose (l := [(CBytes 2, 1%nat); (CBytes 2, 2%nat)]). exists 0%nat, l, stD, (stateOf (reads 0 l stD)), (mkSl 0 0 2 12), (mkSl 0 2 2 10), [255]. split.
  - rewrite (returns _ (reads 0 l stD) []) at 1 by (vm_compute; reflexivity). apply f_equal, f_equal2; [vm_compute; reflexivity|reflexivity].
  - vm_compute. discriminate.
Qed.
(** C114: it is not so that CopyBytes leaves in *s the bytes that follow, if out lies among them. *)
Theorem C114_copy_refuted : exists p out st g ok outc s' st' r, nth_error (r_vars st) p = Some g /\ fits g /\
  CopyBytes (val (r_heap st) g) (content (r_heap st) out) = Ret (ok, outc, s') /\ CopyBytesS p out st = Ret (ok, st') /\
  nth_error (r_vars st') p = Some r /\ val (r_heap st') r <> s'.
Proof.
  pose (out := mkSl 0 3 2 9). exists 0%nat, out, stD, (Some (mkSl 0 0 12 12)), true, [48; 7], (Some [4; 2; 97; 98; 2; 1; 5; 1; 2; 3]), (stateOf (CopyBytesS 0 out stD)), (Some (mkSl 0 2 10 10)).
  split; [reflexivity|]. split; [cbn; lia|]. split; [vm_compute; reflexivity|]. split.
  { rewrite (returns _ (CopyBytesS 0 out stD) false) at 1 by (vm_compute; reflexivity). apply f_equal, f_equal2; [vm_compute; reflexivity|reflexivity]. }
  split; [vm_compute; reflexivity|]. vm_compute. discriminate.
Qed.
(** C114: it is not so that a call that returns false leaves in *s a part that ends where *s ended, if *out is the same variable: with the wrong tag
    the contents of the element are there, and what follows is lost. *)
Theorem C114_in_place_refuted : exists c p st g st' r, nth_error (r_vars st) p = Some g /\ fits g /\ onVars c p p st = Ret (AOk false, st') /\
  nth_error (r_vars st') p = Some r /\ ~ tail g r.
Proof.
  exists (CASN1 49), 0%nat, stD, (Some (mkSl 0 0 12 12)), (stateOf (onVars (CASN1 49) 0 0 stD)), (Some (mkSl 0 2 7 10)).
  split; [reflexivity|]. split; [cbn; lia|]. split.
  { rewrite (returns _ (onVars (CASN1 49) 0 0 stD) (AOk true)) at 1 by (vm_compute; reflexivity). apply f_equal, f_equal2; [vm_compute; reflexivity|reflexivity]. }
  split; [vm_compute; reflexivity|]. cbn. intros (k & K & E). unfold dropS in E. cbn in E. injection E as E1 E2 E3. lia.
Qed.
