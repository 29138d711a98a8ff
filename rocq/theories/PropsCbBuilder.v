(** Properties C25-C31: cryptobyte's Builder. *)
From Coq Require Import ZArith List Lia Bool String.
From Verif Require Import GoBase BeMin CbString CbStringProofs PropsCbString.
From Verif Require Import CbBuilder CbBuilderProofs CbBuilderFixed CbBuilderGen.
Import ListNotations.
Open Scope Z_scope.

(** * C26, C27: a growing builder serialises the tree of calls *)

Lemma new_shows : forall buf, shows (NewBuilder buf) (mkFrame None (zlen buf) 0 0 false) buf.
Proof. intro buf. split; [reflexivity|]. exists []. cbn. rewrite app_nil_r. reflexivity. Qed.

Lemma Bytes_shows : forall st f l, frames st = [f] -> f_err f = None -> f_off f = 0 -> shows st f l ->
  Bytes st = OK l.
Proof.
  intros st f l Hfr He Ho [HL (junk & HM)]. unfold Bytes. rewrite Hfr, He, Ho, HL, HM.
  rewrite sub_app_l by reflexivity. reflexivity.
Qed.

Lemma Bytes_err : forall st f, frames st = [f] -> f_err f <> None -> exists e, Bytes st = ERR e.
Proof.
  intros st f Hfr He. unfold Bytes. rewrite Hfr. destruct (f_err f) as [e|]; [exists e; reflexivity|contradiction].
Qed.

(** Every tree of calls that has bytes yields the initial buffer followed by them. *)
Theorem C26_growing_builder : forall buf is e, wf_items is -> sers is = Some e ->
  exists st, execs (map call is) (NewBuilder buf) = (st, None) /\ Bytes st = OK (buf ++ e).
Proof.
  intros buf is e W HS. destruct grow_all as [_ G].
  destruct (G is W (NewBuilder buf) _ [] buf eq_refl eq_refl eq_refl (new_shows buf))
    as (st & f & E & Hf & Hfr & (Ho & _) & X).
  rewrite HS in X. destruct X as [He X]. exists st. split; [exact E|].
  apply (Bytes_shows st f); auto.
Qed.

(** A sequence inside a sequence whose contents take the two-octet length form, inside a
    16-bit prefixed group. *)
Example C26_witness : exists e,
  sers [IBytes [7]; ILP 2 [IASN1 48 [IASN1 4 [IBytes (repeat 9 200)]; IBytes []]]] = Some e /\ zlen e = 209.
Proof. eexists. split; vm_compute; reflexivity. Qed.

Theorem C27_no_bytes : forall buf is, wf_items is -> sers is = None ->
  exists st e, execs (map call is) (NewBuilder buf) = (st, None) /\ Bytes st = ERR e.
Proof.
  intros buf is W HS. destruct grow_all as [_ G].
  destruct (G is W (NewBuilder buf) _ [] buf eq_refl eq_refl eq_refl (new_shows buf))
    as (st & f & E & Hf & Hfr & _ & X).
  rewrite HS in X. destruct (Bytes_err st f Hfr X) as [e B]. exists st, e. auto.
Qed.

(** [i] is one of the items [is] or inside one of them. *)
Inductive occurs (i : item) : list item -> Prop :=
| occ_here : forall r, occurs i (i :: r)
| occ_later : forall j r, occurs i r -> occurs i (j :: r)
| occ_lp : forall k l r, occurs i l -> occurs i (ILP k l :: r)
| occ_asn1 : forall t l r, occurs i l -> occurs i (IASN1 t l :: r).

Lemma occurs_ser : forall i is, occurs i is -> sers is <> None -> ser i <> None.
Proof.
  induction 1 as [r|j r _ IH|k l r _ IH|t l r _ IH]; intro N; cbn [sers] in N.
  - intro E. rewrite E in N. congruence.
  - apply IH. intro E. rewrite E in N. destruct (ser j); congruence.
  - apply IH. intro E. rewrite ser_ILP, E in N. congruence.
  - apply IH. intro E. rewrite ser_IASN1, E in N. destruct (t mod 32 =? 31); congruence.
Qed.

(** If Bytes returns bytes, then every child anywhere in the tree fits its length prefix, every
    element has at most 2^32-2 content bytes and a tag number below 31, and nothing failed. *)
Theorem C27_children_fit : forall buf is st e, wf_items is ->
  execs (map call is) (NewBuilder buf) = (st, None) -> Bytes st = OK e ->
  (forall k l, occurs (ILP k l) is -> exists c, sers l = Some c /\ zlen c < 256 ^ k) /\
  (forall t l, occurs (IASN1 t l) is -> t mod 32 <> 31 /\ exists c, sers l = Some c /\ zlen c <= 2 ^ 32 - 2) /\
  (forall err, ~ occurs (IErr err) is).
Proof.
  intros buf is st e W E B.
  assert (N : sers is <> None).
  { intro N. destruct (C27_no_bytes buf is W N) as (st' & e' & E' & B').
    rewrite E in E'. injection E' as <-. congruence. }
  split; [|split].
  - intros k l H. pose proof (occurs_ser _ _ H N) as X. rewrite ser_ILP in X.
    destruct (sers l) as [c|]; [|congruence]. exists c. split; [reflexivity|].
    destruct (Z.ltb_spec (zlen c) (256 ^ k)); [assumption|congruence].
  - intros t l H. pose proof (occurs_ser _ _ H N) as X. rewrite ser_IASN1 in X.
    destruct (Z.eqb_spec (t mod 32) 31); [congruence|]. split; [assumption|].
    destruct (sers l) as [c|]; [|congruence]. exists c. split; [reflexivity|].
    destruct (Z.leb_spec (zlen c) (2 ^ 32 - 2)); [assumption|congruence].
  - intros err H. pose proof (occurs_ser _ _ H N) as X. cbn in X. congruence.
Qed.

Example C27_witness :
  sers [ILP 2 [ILP 1 [IBytes (repeat 0 256)]]] = None /\ sers [IASN1 31 []] = None.
Proof. split; vm_compute; reflexivity. Qed.

(** * C25: integers *)

Definition uint_codecs : list (Z * (Z -> op) * (cstr -> go (option Z * cstr))) :=
  [(1, AddUint8, ReadUint8); (2, AddUint16, ReadUint16);
   (3, AddUint24, ReadUint24); (4, AddUint32, ReadUint32)].

Lemma add_be : forall k ad rd, In (k, ad, rd) uint_codecs ->
  1 <= k <= 4 /\ uint_reader k rd /\ forall v, ad v = call (IBytes (be_enc (Z.to_nat k) v)).
Proof.
  intros k ad rd H. cbn in H.
  destruct H as [H|[H|[H|[H|[]]]]]; injection H as <- <- <-;
    (split; [lia|]); (split; [auto using ReadUint8_spec, ReadUint16_spec, ReadUint24_spec, ReadUint32_spec|]);
    intro v; unfold AddUint8, AddUint16, AddUint24, AddUint32, u8; cbn [call].
  - change (Z.to_nat 1) with 1%nat. cbn [be_enc app]. reflexivity.
  - change (Z.to_nat 2) with 2%nat. cbn [be_enc app]. rewrite !Z.shiftr_div_pow2 by lia.
    change (2 ^ 8) with 256. reflexivity.
  - change (Z.to_nat 3) with 3%nat. cbn [be_enc app]. rewrite !Z.shiftr_div_pow2 by lia.
    rewrite Z.div_div by lia. reflexivity.
  - change (Z.to_nat 4) with 4%nat. cbn [be_enc app]. rewrite !Z.shiftr_div_pow2 by lia.
    rewrite !Z.div_div by lia. reflexivity.
Qed.

(** What the adder appends is read back by the matching reader, whatever surrounds it. *)
Theorem C25_uint_roundtrip : forall k ad rd v buf rest, In (k, ad, rd) uint_codecs -> 0 <= v < 2 ^ 32 ->
  exists st bs, execs [ad v] (NewBuilder buf) = (st, None) /\ Bytes st = OK (buf ++ bs) /\ zlen bs = k /\
    rd (Some (bs ++ rest)) = Ret (Some (v mod 2 ^ (8 * k)), Some rest).
Proof.
  intros k ad rd v buf rest HI Hv. destruct (add_be k ad rd HI) as (Hk & [_ R] & A).
  rewrite A. set (bs := be_enc (Z.to_nat k) v).
  destruct (C26_growing_builder buf [IBytes bs] bs) as (st & E & B);
    [cbn; auto|cbn; rewrite app_nil_r; reflexivity|].
  exists st, bs. cbn [map] in E. split; [exact E|]. split; [exact B|].
  assert (L : zlen bs = k) by (unfold bs; rewrite zlen_be_enc; lia).
  split; [exact L|]. rewrite R by (auto; apply be_enc_bytes).
  unfold bs. rewrite be_dec_enc. rewrite Z2Nat.id by lia.
  replace (2 ^ (8 * k)) with (256 ^ k); [reflexivity|].
  rewrite Z.pow_mul_r by lia. reflexivity.
Qed.

Example C25_witness : exists st, execs [AddUint24 0x01020304] (NewBuilder [9]) = (st, None) /\
  Bytes st = OK [9; 2; 3; 4].
Proof. eexists. split; reflexivity. Qed.

(** * C28: errors are sticky *)

(** On a builder with an error the calls do nothing at all: continuations do not even run. *)
Theorem C28_adds_ignored : forall st f rest, frames st = f :: rest -> f_err f <> None ->
  (forall bs, exec (OAdd 0 bs) st = (st, None)) /\
  (forall k body, exec (OLP 0 k body) st = (st, None)) /\
  (forall t body, exec (OASN1 0 t body) st = (st, None)).
Proof.
  intros st f rest Hfr He. destruct (f_err f) as [e|] eqn:E; [|contradiction].
  split; [|split].
  - intro bs. cbn [exec]. unfold add. rewrite Hfr. cbn [nth_error]. rewrite E. reflexivity.
  - intros k body. rewrite exec_OLP. unfold addLP. rewrite Hfr. cbn [nth_error]. rewrite E. reflexivity.
  - intros t body. rewrite exec_OASN1. rewrite Hfr. cbn [nth_error]. rewrite E. reflexivity.
Qed.

(** A builder (growing or fixed) whose Bytes returns an error keeps doing so after any further
    sequence of calls, including assignments of other errors and panicking continuations. *)
Theorem C28_sticky : forall st e, Bytes st = ERR e -> List.length (frames st) = 1%nat ->
  forall ops st', execs ops st = (st', None) -> exists e', Bytes st' = ERR e'.
Proof.
  intros st e B L ops st' E. destruct (frames st) as [|f [|]] eqn:Hfr; try discriminate L.
  assert (He : f_err f <> None).
  { unfold Bytes in B. rewrite Hfr in B. destruct (f_err f); congruence. }
  destruct (proj2 exec_keep_all ops st) as [K N]. rewrite E in K, N. cbn [fst snd] in K, N.
  specialize (N eq_refl). destruct K as (ex & fs & K1 & K2). rewrite Hfr in *.
  inversion K2 as [|? f' ? l' K3 K4]; subst. inversion K4; subst.
  rewrite K1, app_length in N. cbn [List.length] in N.
  destruct ex; [|cbn [List.length] in N; lia].
  apply (Bytes_err st' f'); [exact K1|]. apply K3. exact He.
Qed.

Example C28_witness : exists st e, Bytes st = ERR e /\ List.length (frames st) = 1%nat /\
  execs [OASN1 0 48 [OAdd 0 [1]; OSetErr 0 "bad"; OAdd 0 [2]]] (NewBuilder []) = (st, None) /\
  exists st', execs [OAdd 0 [3]; OLP 0 1 [OAdd 0 [4]]] st = (st', None).
Proof. do 2 eexists. split; [|split; [|split; [reflexivity|]]]; try reflexivity. eexists. reflexivity. Qed.

(** An error in the builder a continuation receives becomes an error of the builder the
    length-prefixed call was made on. *)
Theorem C28_child_error : forall st f rest k body st1 c rest1,
  frames st = f :: rest -> f_err f = None ->
  execs body (enter st k false) = (st1, None) -> frames st1 = c :: rest1 -> f_err c <> None ->
  exists st2 f2, exec (OLP 0 k body) st = (st2, None) /\ frames st2 = f2 :: skipn 1 (frames st2) /\
    f_err f2 <> None /\ List.length (frames st2) = List.length (frames st).
Proof.
  intros st f rest k body st1 c rest1 Hfr He E Hc Hce.
  destruct (proj1 exec_keep_all (OLP 0 k body) st) as [_ KL].
  rewrite exec_OLP in *. unfold addLP in *. rewrite Hfr in *. cbn [nth_error Nat.eqb negb] in *. rewrite He in *.
  rewrite E in *. cbn [leave] in *.
  destruct (proj2 exec_keep_all body (enter st k false)) as [K _]. rewrite E in K. cbn [fst] in K.
  apply keeps_length in K.
  destruct (enter_keep st k false f rest Hfr) as (c0 & f1 & E0 & _). rewrite E0 in K. cbn [List.length] in K.
  destruct (flush_err (List.length (frames st1) - List.length (f :: rest)) st1 c rest1) as (N & f2 & r2 & F2 & X2);
    [cbn [List.length]; lia|exact Hc|exact Hce|].
  cbn [List.length] in *.
  destruct (flush (List.length (frames st1) - S (List.length rest)) st1) as [st2 o]. cbn [fst snd] in *. subst o.
  exists st2, f2. split; [reflexivity|]. rewrite F2 in *. split; [reflexivity|]. split; [exact X2|]. auto.
Qed.

(** * C29: fixed-size builders *)

(** Whatever is called, and even if a call panics, the array behind the builder's buffer is
    unchanged beyond the buffer's capacity. *)
Theorem C29_capacity : forall m len cap ops, wf_ops ops -> 0 <= len <= cap -> cap <= zlen m ->
  forall st o, execs ops (NewFixedBuilder m len cap) = (st, o) ->
  zlen (mem st) = zlen m /\ skipn (Z.to_nat cap) (mem st) = skipn (Z.to_nat cap) m /\
  (forall bs, Bytes st = OK bs -> zlen bs <= cap).
Proof.
  intros m len cap ops W HL HC st o E.
  assert (I0 : confined m cap (NewFixedBuilder m len cap)).
  { split; [reflexivity|]. split; [reflexivity|]. split; [lia|]. split.
    - exists (firstn (Z.to_nat cap) m). cbn. split; [symmetry; apply firstn_skipn|].
      rewrite zlen_firstn; [lia|]. unfold zlen in HC. lia.
    - constructor; [|constructor]. split; [cbn; lia|]. split; [cbn; lia|cbn; lia]. }
  pose proof (proj2 (exec_inv_all _ (confined_closed m cap)) ops W _ I0) as I.
  rewrite E in I. cbn [fst] in I. destruct I as (Hf & Hc & Hr & (m1 & Hm & Lm) & HF).
  assert (L : zlen (mem st) = zlen m).
  { rewrite Hm, zlen_app, Lm, zlen_skipn by (unfold zlen in HC; lia). unfold zlen in *. lia. }
  split; [exact L|]. split.
  - rewrite Hm. apply skipn_app_exact. unfold zlen in Lm. lia.
  - intros bs B. unfold Bytes in B. destruct (frames st) as [|f [|]]; try discriminate.
    destruct (f_err f); [discriminate|]. injection B as <-.
    pose proof (Forall_inv HF) as (I1 & I2 & I3).
    destruct (Z.le_gt_cases (f_off f) (f_len f)).
    + rewrite sub_length; lia.
    + unfold sub. replace (Z.to_nat (f_len f - f_off f)) with 0%nat by lia. cbn. change (zlen (@nil Z)) with 0. lia.
Qed.

Lemma fixed_shows : forall init junk cap,
  shows (NewFixedBuilder (init ++ junk) (zlen init) cap) (mkFrame None (zlen init) 0 0 false) init.
Proof. intros. split; [reflexivity|]. exists junk. reflexivity. Qed.

(** Plain adds: exact when they fit, an error when they do not; never a panic. *)
Theorem C29_plain : forall init junk cap bss,
  zlen init <= cap -> cap <= zlen (init ++ junk) ->
  exists st, execs (map (OAdd 0) bss) (NewFixedBuilder (init ++ junk) (zlen init) cap) = (st, None) /\
    if zlen init + zlen (List.concat bss) <=? cap
    then Bytes st = OK (init ++ List.concat bss) else exists e, Bytes st = ERR e.
Proof.
  intros init junk cap bss HC1 HC2.
  assert (G : forall bss st f l, fixed st = true -> frames st = [f] -> f_err f = None -> f_off f = 0 ->
     shows st f l -> zlen l <= b_cap st -> b_cap st <= zlen (mem st) ->
     exists st', execs (map (OAdd 0) bss) st = (st', None) /\
       if zlen l + zlen (List.concat bss) <=? b_cap st then Bytes st' = OK (l ++ List.concat bss)
       else exists e, Bytes st' = ERR e).
  { clear. induction bss as [|bs bss IH]; intros st f l Hf Hfr He Ho HS H1 H2.
    - exists st. split; [reflexivity|]. cbn [List.concat]. rewrite zlen_nil, Z.add_0_r, app_nil_r.
      destruct (Z.leb_spec (zlen l) (b_cap st)); [|lia]. apply (Bytes_shows st f); auto.
    - cbn [map execs exec List.concat]. pose proof (add_fixed st f [] l bs Hf Hfr He HS H2) as A.
      rewrite zlen_app. pose proof (zlen_nonneg _ (List.concat bss)). pose proof (zlen_nonneg _ bs).
      destruct (Z.leb_spec (zlen l + zlen bs) (b_cap st)) as [L|L].
      + destruct A as (st1 & f1 & -> & F1 & C1 & M1 & R1 & (O1 & _) & X1 & S1).
        destruct (IH st1 f1 (l ++ bs)) as (st2 & E2 & B2); auto; [lia|rewrite zlen_app; lia|lia|].
        exists st2. split; [exact E2|]. rewrite C1, zlen_app, <- app_assoc in B2.
        rewrite Z.add_assoc. exact B2.
      + destruct A as [e ->]. destruct (Z.leb_spec (zlen l + (zlen bs + zlen (List.concat bss))) (b_cap st)); [lia|].
        destruct (errs_inert (map IBytes bss) (put_frame st 0 (set_err f e)) (set_err f e) [])
          as (st2 & f2 & E2 & _ & _ & R2 & _ & X2).
        { cbn. rewrite Hfr. reflexivity. } { discriminate. }
        rewrite map_map in E2. cbn [call] in E2. exists st2. split; [exact E2|].
        apply (Bytes_err st2 f2); auto. }
  destruct (G bss (NewFixedBuilder (init ++ junk) (zlen init) cap) _ init eq_refl eq_refl eq_refl eq_refl
              (fixed_shows init junk cap) HC1 HC2) as (st & E & B).
  exists st. split; [exact E|exact B].
Qed.

Example C29_plain_witness : exists st,
  execs (map (OAdd 0) [[1]; [2; 3]]) (NewFixedBuilder ([7] ++ [0; 0; 0; 8]) 1 4) = (st, None) /\
  Bytes st = OK [7; 1; 2; 3] /\ mem st = [7; 1; 2; 3; 8].
Proof. eexists. split; [|split]; reflexivity. Qed.

(** Trees: [sersF] says what is left, namely only the length prefixes of the children, and how
    much room the calls need.  When the room does not suffice or the tree has no bytes, the
    builder reports an error or panics with its internal error. *)
Theorem C29_children : forall init junk cap is, wf_items is ->
  zlen init <= cap -> cap <= zlen (init ++ junk) ->
  exists st o, execs (map call is) (NewFixedBuilder (init ++ junk) (zlen init) cap) = (st, o) /\
    match sersF is with
    | Some (need, v) =>
        if zlen init + need <=? cap then o = None /\ Bytes st = OK (init ++ v)
        else (o = None /\ exists e, Bytes st = ERR e) \/ o = Some (PUser "cryptobyte: internal error")
    | None => (o = None /\ exists e, Bytes st = ERR e) \/ o = Some (PUser "cryptobyte: internal error")
    end.
Proof.
  intros init junk cap is W HC1 HC2.
  pose proof (proj2 fixed_all is W (NewFixedBuilder (init ++ junk) (zlen init) cap) _ [] init eq_refl eq_refl eq_refl
       (fixed_shows init junk cap) HC1 HC2) as G.
  change (b_cap (NewFixedBuilder (init ++ junk) (zlen init) cap)) with cap in G.
  assert (BAD : forall o, fixed_bad (mkFrame None (zlen init) 0 0 false) [] o ->
     (snd o = None /\ exists e, Bytes (fst o) = ERR e) \/ snd o = Some (PUser "cryptobyte: internal error")).
  { intros o [(st' & f' & -> & R & _ & X)|(st' & ->)]; [left|right; reflexivity].
    split; [reflexivity|]. apply (Bytes_err st' f'); auto. }
  destruct (execs (map call is) (NewFixedBuilder (init ++ junk) (zlen init) cap)) as [st o].
  exists st, o. split; [reflexivity|].
  destruct (sersF is) as [[n v]|]; [|apply (BAD (st, o)); exact G].
  destruct (zlen init + n <=? cap); [|apply (BAD (st, o)); exact G].
  destruct G as (st' & f' & E & F1 & C1 & M1 & R1 & (O1 & _) & X1 & S1). injection E as -> ->.
  split; [reflexivity|]. apply (Bytes_shows st' f'); auto.
Qed.

(** So a fixed builder with plenty of room does not produce the tree's bytes ... *)
Theorem C29_children_lost_refuted : exists is e st v, wf_items is /\ sers is = Some e /\
  execs (map call is) (NewFixedBuilder (repeat 0 100) 0 100) = (st, None) /\ Bytes st = OK v /\ v <> e.
Proof.
  exists [ILP 1 [IBytes [10; 11]]; IBytes [12]], [2; 10; 11; 12].
  eexists _, [2; 12]. split; [cbn; repeat split; auto; lia|].
  split; [vm_compute; reflexivity|]. split; [vm_compute; reflexivity|]. split; [vm_compute; reflexivity|discriminate].
Qed.

(** ... and one without room for the length prefix of an empty element panics. *)
Theorem C29_overflow_panics_refuted : exists is, wf_items is /\ sers is <> None /\
  snd (execs (map call is) (NewFixedBuilder (repeat 0 1) 0 1)) = Some (PUser "cryptobyte: internal error").
Proof. exists [IASN1 48 []]. split; [cbn; auto|]. split; [discriminate|vm_compute; reflexivity]. Qed.

(** * C30: panics *)

(** Level [S k] is a builder whose child is pending. *)
Theorem C30_write_pending : forall st k f, nth_error (frames st) (S k) = Some f ->
  (f_err f = None ->
     let boom := (st, Some (PUser "attempted write while child is pending")) in
     (forall bs, exec (OAdd (S k) bs) st = boom) /\
     (forall n body, exec (OLP (S k) n body) st = boom) /\
     (forall t body, t mod 32 <> 31 -> exec (OASN1 (S k) t body) st = boom)) /\
  (f_err f <> None ->
     (forall bs, exec (OAdd (S k) bs) st = (st, None)) /\
     (forall n body, exec (OLP (S k) n body) st = (st, None)) /\
     (forall t body, exec (OASN1 (S k) t body) st = (st, None))).
Proof.
  intros st k f E. split; intro He.
  - cbv zeta. split; [|split].
    + intro bs. cbn [exec]. unfold add. rewrite E, He. reflexivity.
    + intros n body. rewrite exec_OLP. unfold addLP. rewrite E, He. cbn [Nat.eqb negb].
      unfold add. rewrite E, He. reflexivity.
    + intros t body Ht. rewrite exec_OASN1, E, He, land_1f.
      destruct (Z.eqb_spec (t mod 32) 31); [contradiction|].
      unfold add. rewrite E, He. reflexivity.
  - destruct (f_err f) as [e|] eqn:Ee; [|contradiction]. split; [|split].
    + intro bs. cbn [exec]. unfold add. rewrite E, Ee. reflexivity.
    + intros n body. rewrite exec_OLP. unfold addLP. rewrite E, Ee. reflexivity.
    + intros t body. rewrite exec_OASN1, E, Ee. reflexivity.
Qed.

Example C30_pending_witness :
  snd (exec (OLP 0 1 [OLP 0 2 [OAdd 2 [1]]]) (NewBuilder []))
  = Some (PUser "attempted write while child is pending").
Proof. reflexivity. Qed.

Lemma new_tidy : forall buf, tidy (NewBuilder buf).
Proof.
  intro buf. split; [reflexivity|]. split; [|cbn; auto]. constructor; [|constructor].
  pose proof (zlen_nonneg _ buf). split; [cbn; lia|]. split; [cbn; lia|]. split; [cbn; lia|discriminate].
Qed.

(** A BuildError panic in a continuation (at any depth of the outermost call [OLP 0 k body] or
    [OASN1 0 t body]) of a growing builder is recovered and Bytes returns an error. *)
Theorem C30_build_error : forall buf ops st k body st1 e,
  wf_ops ops -> wf_ops body -> 1 <= k <= 4 ->
  execs ops (NewBuilder buf) = (st, None) ->
  (exists bs, Bytes st = OK bs) ->
  execs body (enter st k false) = (st1, Some (PBuildError e)) ->
  exists st2 e2, exec (OLP 0 k body) st = (st2, None) /\ Bytes st2 = ERR e2.
Proof.
  intros buf ops st k body st1 e W Wb Hk E [bs B] Eb.
  assert (T : tidy st).
  { pose proof (proj2 (exec_inv_all _ tidy_closed) ops W _ (new_tidy buf)) as I. rewrite E in I. exact I. }
  unfold Bytes in B. destruct (frames st) as [|f [|]] eqn:Hfr; try discriminate.
  destruct (f_err f) eqn:He; [discriminate|]. clear B.
  assert (T1 : tidy st1).
  { assert (Te : tidy (enter st k false)) by (eapply (ci_enter _ tidy_closed); eauto; discriminate).
    pose proof (proj2 (exec_inv_all _ tidy_closed) body Wb _ Te) as I. rewrite Eb in I. exact I. }
  destruct (proj1 exec_keep_all (OLP 0 k body) st) as [_ KL].
  rewrite exec_OLP in *. unfold addLP in *. rewrite Hfr in *. cbn [nth_error Nat.eqb negb List.length] in *.
  rewrite He in *. rewrite Eb in *. cbn [leave Nat.eqb] in *.
  assert (T2 : tidy (set_root_err st1 e)) by (apply (ci_root _ tidy_closed); auto).
  set (n := (List.length (frames (set_root_err st1 e)) - 1)%nat) in *.
  destruct (tidy_flush n _ T2) as [_ N].
  assert (LT : exists fs r, frames st1 = fs ++ [r]).
  { destruct (snoc_or_nil _ (frames st1)) as [Z0|Z0]; [|exact Z0].
    destruct (proj2 exec_keep_all body (enter st k false)) as [K _]. rewrite Eb in K. cbn [fst] in K.
    apply keeps_length in K. destruct (enter_keep st k false f [] Hfr) as (c0 & f1 & E0 & _).
    rewrite E0, Z0 in K. cbn in K. lia. }
  destruct LT as (fs & r & LT). pose proof (set_root_frames st1 e fs r LT) as FR.
  destruct (flush_keep n (set_root_err st1 e)) as (ex & gs & F1 & F2 & F3).
  { unfold n. rewrite FR, app_length. cbn [List.length]. lia. }
  specialize (F3 N). specialize (KL N). subst ex. cbn [app] in F1.
  assert (SK : skipn n (frames (set_root_err st1 e)) = [set_err r e]).
  { unfold n. rewrite FR, app_length. cbn [List.length]. apply skipn_app_exact. lia. }
  rewrite SK in F2.
  assert (G : exists g, gs = [g] /\ err_kept (set_err r e) g).
  { clear - F2. inversion F2 as [|? g ? l' K3 K4]; subst. inversion K4; subst. eauto. }
  destruct G as (g & -> & K3). destruct (flush n (set_root_err st1 e)) as [st2 o]. cbn [fst snd] in *. subst o.
  destruct (Bytes_err st2 g F1) as [e2 B2]; [apply K3; discriminate|].
  exists st2, e2. auto.
Qed.

Example C30_build_error_witness : exists st,
  exec (OLP 0 2 [OAdd 0 [1]; OASN1 0 48 [OPanicBuild "nope"]]) (NewBuilder [5]) = (st, None) /\
  exists e, Bytes st = ERR e.
Proof. eexists. split; [reflexivity|]. eexists. reflexivity. Qed.

(** Any other panic leaves the call unchanged. *)
Theorem C30_other_panics : forall st f rest k body st1 p,
  frames st = f :: rest -> f_err f = None ->
  execs body (enter st k false) = (st1, Some p) -> (forall e, p <> PBuildError e) ->
  exec (OLP 0 k body) st = (st1, Some p).
Proof.
  intros st f rest k body st1 p Hfr He E Hp.
  rewrite exec_OLP. unfold addLP. rewrite Hfr. cbn [nth_error Nat.eqb negb]. rewrite He, E.
  destruct p; try reflexivity. exfalso. eapply Hp. reflexivity.
Qed.

(** * C31: elements *)

Theorem C31_element_roundtrip : forall t c buf rest out, byte t -> t mod 32 <> 31 -> zlen c <= 2 ^ 32 - 8 ->
  exists st bs, execs [OASN1 0 t [OAdd 0 c]] (NewBuilder buf) = (st, None) /\ Bytes st = OK (buf ++ bs) /\
    ReadASN1 (Some (bs ++ rest)) out t = Ret (true, Some c, Some rest).
Proof.
  intros t c buf rest out Ht Hl Hc. pose proof (zlen_nonneg _ c).
  destruct (C26_growing_builder buf [IASN1 t [IBytes c]] (tlv t c)) as (st & E & B).
  { cbn; auto. }
  { cbn [sers]. rewrite ser_IASN1. destruct (Z.eqb_spec (t mod 32) 31); [contradiction|].
    cbn [sers ser]. rewrite app_nil_r. destruct (Z.leb_spec (zlen c) (2 ^ 32 - 2)); [|lia].
    rewrite app_nil_r. reflexivity. }
  exists st, (tlv t c). cbn [map call] in E. split; [exact E|]. split; [exact B|].
  unfold ReadASN1, ReadAnyASN1. rewrite readASN1_tlv; auto.
  - cbn [bind]. rewrite Z.eqb_refl. reflexivity.
  - rewrite zlen_tlv. pose proof (zlen_der_len_le (zlen c) ltac:(lia)). lia.
Qed.

Example C31_witness : byte 48 /\ 48 mod 32 <> 31 /\ zlen (repeat 1 300) <= 2 ^ 32 - 8.
Proof. split; [split; vm_compute; congruence|]. split; [discriminate|]. vm_compute. discriminate. Qed.

(** The bound is about the reader: the longest elements a Builder writes cannot be read back. *)
Theorem C31_too_long_to_read : forall t c buf rest out, byte t -> t mod 32 <> 31 ->
  bytes c -> bytes rest -> 2 ^ 32 - 6 <= zlen c <= 2 ^ 32 - 2 ->
  exists st bs, execs [OASN1 0 t [OAdd 0 c]] (NewBuilder buf) = (st, None) /\ Bytes st = OK (buf ++ bs) /\
    ReadASN1 (Some (bs ++ rest)) out t = Ret (false, out, Some (bs ++ rest)).
Proof.
  intros t c buf rest out Ht Hl Bc Br Hc.
  destruct (C26_growing_builder buf [IASN1 t [IBytes c]] (tlv t c)) as (st & E & B).
  { cbn; auto. }
  { cbn [sers]. rewrite ser_IASN1. destruct (Z.eqb_spec (t mod 32) 31); [contradiction|].
    cbn [sers ser]. rewrite app_nil_r. destruct (Z.leb_spec (zlen c) (2 ^ 32 - 2)); [|lia].
    rewrite app_nil_r. reflexivity. }
  exists st, (tlv t c). cbn [map call] in E. split; [exact E|]. split; [exact B|].
  assert (BB : bytes (tlv t c ++ rest)).
  { unfold tlv. cbn [app]. apply bytes_cons. split; [exact Ht|].
    rewrite <- app_assoc. apply bytes_app. split; [apply der_len_bytes; lia|]. apply bytes_app. auto. }
  apply ReadASN1_fail; [exact BB|]. intros (t' & c' & r' & HE & HL & HS). apply (f_equal contents) in HE. cbn [contents] in HE.
  pose proof (zlen_nonneg _ c'). pose proof (zlen_der_len_pos (zlen c')). rewrite zlen_tlv in HS.
  apply tlv_inj in HE; [|lia|lia]. destruct HE as (-> & -> & ->).
  assert (D : zlen (der_len (zlen c')) = 5).
  { rewrite der_len_long by lia. rewrite zlen_cons.
    assert (zlen (be_min (zlen c')) = 4); [|lia].
    apply (zlen_be_min_iff (zlen c') 3); lia. }
  lia.
Qed.
