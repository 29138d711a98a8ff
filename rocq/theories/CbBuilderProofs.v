(** Lemmas about the model of cryptobyte's Builder. *)
From Coq Require Import ZArith List Lia Bool String.
From Verif Require Import GoBase BeMin CbString CbStringProofs CbBuilder.
Import ListNotations.
Open Scope Z_scope.

(** * What a Builder should produce, independent of the model *)

(** A tree of values: plain bytes, length-prefixed groups, ASN.1 elements, and a value whose
    marshalling fails. *)
Inductive item : Set :=
| IBytes (bs : list Z)
| ILP (k : Z) (l : list item)
| IASN1 (t : Z) (l : list item)
| IErr (e : string).

(** The bytes of an item, or [None] if it has none: a group too long for its prefix, an element
    of more than 2^32-2 bytes or with tag number 31, or a failing value. *)
Fixpoint ser (i : item) : option (list Z) :=
  let fix sers (l : list item) : option (list Z) :=
    match l with
    | [] => Some []
    | i :: r => match ser i, sers r with
                | Some a, Some b => Some (a ++ b)
                | _, _ => None
                end
    end in
  match i with
  | IBytes bs => Some bs
  | ILP k l => match sers l with
               | Some c => if zlen c <? 256 ^ k then Some (be_enc (Z.to_nat k) (zlen c) ++ c) else None
               | None => None
               end
  | IASN1 t l => if t mod 32 =? 31 then None
                 else match sers l with
                      | Some c => if zlen c <=? 2 ^ 32 - 2 then Some (tlv t c) else None
                      | None => None
                      end
  | IErr _ => None
  end.

Fixpoint sers (l : list item) : option (list Z) :=
  match l with
  | [] => Some []
  | i :: r => match ser i, sers r with
              | Some a, Some b => Some (a ++ b)
              | _, _ => None
              end
  end.

(** The calls that write an item to the innermost builder. *)
Fixpoint call (i : item) : op :=
  match i with
  | IBytes bs => OAdd 0 bs
  | ILP k l => OLP 0 k (map call l)
  | IASN1 t l => OASN1 0 t (map call l)
  | IErr e => OSetErr 0 e
  end.

(** Length prefixes have one to four bytes (AddUint8LengthPrefixed ... AddUint32LengthPrefixed). *)
Fixpoint wf_item (i : item) : Prop :=
  let fix wf_items (l : list item) : Prop :=
    match l with [] => True | i :: r => wf_item i /\ wf_items r end in
  match i with
  | ILP k l => 1 <= k <= 4 /\ wf_items l
  | IASN1 _ l => wf_items l
  | _ => True
  end.
Fixpoint wf_items (l : list item) : Prop :=
  match l with [] => True | i :: r => wf_item i /\ wf_items r end.

(** Induction over items. *)
Section ItemInd.
  Variable P : item -> Prop.
  Variable Q : list item -> Prop.
  Hypothesis Hb : forall bs, P (IBytes bs).
  Hypothesis Hl : forall k l, Q l -> P (ILP k l).
  Hypothesis Ha : forall t l, Q l -> P (IASN1 t l).
  Hypothesis He : forall e, P (IErr e).
  Hypothesis Hn : Q [].
  Hypothesis Hc : forall i l, P i -> Q l -> Q (i :: l).
  Fixpoint item_ind2 (i : item) : P i :=
    let fix items_ind2 (l : list item) : Q l :=
      match l with [] => Hn | i :: r => Hc i r (item_ind2 i) (items_ind2 r) end in
    match i with
    | IBytes bs => Hb bs
    | ILP k l => Hl k l (items_ind2 l)
    | IASN1 t l => Ha t l (items_ind2 l)
    | IErr e => He e
    end.
  Lemma items_ind2 : forall l, Q l.
  Proof. induction l; [apply Hn|apply Hc; [apply item_ind2|assumption]]. Qed.
End ItemInd.

(** * Unfolding *)

Definition addLP (lvl : nat) (lenLen : Z) (isASN1 : bool) (body : list op) (st : bstate) : outcome :=
  match nth_error (frames st) lvl with
  | None => (st, Some PNil)
  | Some f =>
      match f_err f with
      | Some _ => (st, None)
      | None =>
          if negb (Nat.eqb lvl 0) then add st lvl (repeat 0 (Z.to_nat lenLen))
          else leave (List.length (frames st)) (execs body (enter st lenLen isASN1))
      end
  end.

Lemma exec_OLP : forall lvl k body st, exec (OLP lvl k body) st = addLP lvl k false body st.
Proof. reflexivity. Qed.

Lemma exec_OASN1 : forall lvl tag body st,
  exec (OASN1 lvl tag body) st =
  match nth_error (frames st) lvl with
  | None => (st, Some PNil)
  | Some f =>
      match f_err f with
      | Some _ => (st, None)
      | None =>
          if Z.land tag 0x1f =? 0x1f then
            (put_frame st lvl
               (set_err f "cryptobyte: high-tag number identifier octects not supported"), None)
          else match add st lvl [tag] with
               | (st, None) => addLP lvl 1 true body st
               | x => x
               end
      end
  end.
Proof. reflexivity. Qed.

Lemma ser_ILP : forall k l, ser (ILP k l) =
  match sers l with
  | Some c => if zlen c <? 256 ^ k then Some (be_enc (Z.to_nat k) (zlen c) ++ c) else None
  | None => None
  end.
Proof. reflexivity. Qed.

Lemma ser_IASN1 : forall t l, ser (IASN1 t l) =
  if t mod 32 =? 31 then None
  else match sers l with
       | Some c => if zlen c <=? 2 ^ 32 - 2 then Some (tlv t c) else None
       | None => None
       end.
Proof. reflexivity. Qed.

Lemma wf_ILP : forall k l, wf_item (ILP k l) <-> 1 <= k <= 4 /\ wf_items l.
Proof. reflexivity. Qed.
Lemma wf_IASN1 : forall t l, wf_item (IASN1 t l) <-> wf_items l.
Proof. reflexivity. Qed.

Lemma execs_app : forall a b st,
  execs (a ++ b) st = match execs a st with (st', None) => execs b st' | x => x end.
Proof.
  induction a as [|o a IH]; intros b st; [reflexivity|]. cbn [app execs].
  destruct (exec o st) as [st1 [k|]]; [reflexivity|apply IH].
Qed.

(** * Growing builders *)

(** Builder [f] currently holds the bytes [l]. *)
Definition shows (st : bstate) (f : frame) (l : list Z) : Prop :=
  f_len f = zlen l /\ exists junk, mem st = l ++ junk.

Lemma write_grow : forall st l junk bs, fixed st = false -> mem st = l ++ junk ->
  write st (zlen l) bs = l ++ bs.
Proof.
  intros st l junk bs Hf Hm. unfold write. rewrite Hf, Hm.
  rewrite firstn_app_exact by (unfold zlen; lia). reflexivity.
Qed.

Lemma splice_nil : forall A (h : list A) o, splice h o [] = h.
Proof.
  intros. unfold splice. cbn [app]. rewrite zlen_nil, Z.add_0_r. apply firstn_skipn.
Qed.

Lemma nat_len0 : forall z, Z.to_nat (zlen (A := Z) z) = List.length z.
Proof. intros. unfold zlen. lia. Qed.

(** The length octets written by flush1 are the DER ones. *)
Lemma asn1LenBytes_der : forall n, 0 <= n <= 2 ^ 32 - 2 ->
  exists ll lb n', asn1LenBytes n = Some (ll, lb, n') /\
    ((n < 128 /\ ll = 1 /\ lb = n /\ n' = 0 /\ der_len n = [n]) \/
     (128 <= n /\ 2 <= ll <= 5 /\ n' = n /\ zlen (be_min n) = ll - 1 /\
      be_enc (Z.to_nat (ll - 1)) n = be_min n /\ der_len n = lb :: be_min n)).
Proof.
  intros n H. unfold asn1LenBytes.
  destruct (Z.ltb_spec 0xfffffffe n); [lia|].
  assert (G : forall k, 1 <= k <= 4 -> 256 ^ (k - 1) <= n < 256 ^ k -> 128 <= n ->
            zlen (be_min n) = k /\ be_enc (Z.to_nat k) n = be_min n /\
            der_len n = 128 + k :: be_min n).
  { intros k Hk B G. assert (L : zlen (be_min n) = k).
    { rewrite (zlen_be_min_iff n (k - 1)); [lia|lia|]. replace (k - 1 + 1) with k by lia. lia. }
    split; [exact L|]. split.
    - rewrite <- (be_enc_dec (be_min n) (be_min_bytes n)). rewrite be_dec_min by lia.
      f_equal. unfold zlen in L. lia.
    - rewrite der_len_long, L by lia. reflexivity. }
  destruct (Z.ltb_spec 0xffffff n).
  { exists 5, 0x84, n. split; [reflexivity|right].
    destruct (G 4) as (A & B & C); [lia|lia|lia|]. repeat split; auto; lia. }
  destruct (Z.ltb_spec 0xffff n).
  { exists 4, 0x83, n. split; [reflexivity|right].
    destruct (G 3) as (A & B & C); [lia|lia|lia|]. repeat split; auto; lia. }
  destruct (Z.ltb_spec 0xff n).
  { exists 3, 0x82, n. split; [reflexivity|right].
    destruct (G 2) as (A & B & C); [lia|lia|lia|]. repeat split; auto; lia. }
  destruct (Z.ltb_spec 0x7f n).
  { exists 2, 0x81, n. split; [reflexivity|right].
    destruct (G 1) as (A & B & C); [lia|lia|lia|]. repeat split; auto; lia. }
  exists 1, n, 0. split; [reflexivity|left]. rewrite der_len_short by lia. repeat split; lia.
Qed.

Definition same_hdr (f f' : frame) : Prop :=
  f_off f' = f_off f /\ f_pll f' = f_pll f /\ f_asn1 f' = f_asn1 f.

(** Outcome of writing something that has bytes [e] (or none) to the innermost builder [f],
    which holds [l]. *)
Definition grown (e : option (list Z)) (f : frame) (rest : list frame) (l : list Z) (o : outcome) : Prop :=
  exists st' f', o = (st', None) /\ fixed st' = false /\ frames st' = f' :: rest /\
    same_hdr f f' /\
    match e with
    | Some e => f_err f' = None /\ shows st' f' (l ++ e)
    | None => f_err f' <> None
    end.

Lemma same_hdr_refl : forall f, same_hdr f f.
Proof. intros; repeat split. Qed.
Lemma same_hdr_trans : forall f g h, same_hdr f g -> same_hdr g h -> same_hdr f h.
Proof. unfold same_hdr; intros; intuition congruence. Qed.

Lemma add_grow : forall st f rest l bs, fixed st = false -> frames st = f :: rest ->
  f_err f = None -> shows st f l -> grown (Some bs) f rest l (add st 0 bs).
Proof.
  intros st f rest l bs Hf Hfr He [HL [junk Hm]]. unfold grown, add. rewrite Hfr. cbn [nth_error].
  rewrite He, Hf. cbn [Nat.eqb negb andb].
  eexists _, _. split; [reflexivity|]. cbn [put_frame set_frames set_mem fixed frames mem].
  rewrite Hfr. cbn [upd]. split; [exact Hf|]. split; [reflexivity|].
  split; [repeat split|]. split; [exact He|].
  split; [cbn; rewrite HL, zlen_app; reflexivity|].
  exists []. cbn. rewrite HL, (write_grow st l junk) by auto. rewrite app_nil_r. reflexivity.
Qed.

Lemma err_inert : forall i st f rest, frames st = f :: rest -> f_err f <> None ->
  exists st' f', exec (call i) st = (st', None) /\ fixed st' = fixed st /\ mem st' = mem st /\
    frames st' = f' :: rest /\ same_hdr f f' /\ f_err f' <> None.
Proof.
  intros i st f rest Hfr He. destruct (f_err f) as [e|] eqn:E; [|contradiction].
  assert (X : exists st' f', (st, @None panic_kind) = (st', None) /\ fixed st' = fixed st /\
     mem st' = mem st /\ frames st' = f' :: rest /\ same_hdr f f' /\ f_err f' <> None).
  { exists st, f. rewrite E. repeat split; auto. }
  destruct i as [bs|k l|t l|e']; cbn [call].
  - cbn [exec]. unfold add. rewrite Hfr. cbn [nth_error]. rewrite E. exact X.
  - rewrite exec_OLP. unfold addLP. rewrite Hfr. cbn [nth_error]. rewrite E. exact X.
  - rewrite exec_OASN1. rewrite Hfr. cbn [nth_error]. rewrite E. exact X.
  - cbn [exec]. rewrite Hfr. cbn [nth_error]. eexists _, _. split; [reflexivity|].
    cbn. rewrite Hfr. cbn. repeat split; discriminate.
Qed.

Lemma errs_inert : forall l st f rest, frames st = f :: rest -> f_err f <> None ->
  exists st' f', execs (map call l) st = (st', None) /\ fixed st' = fixed st /\ mem st' = mem st /\
    frames st' = f' :: rest /\ same_hdr f f' /\ f_err f' <> None.
Proof.
  induction l as [|i l IH]; intros st f rest Hfr He.
  - exists st, f. repeat split; auto.
  - destruct (err_inert i st f rest Hfr He) as (st1 & f1 & E1 & F1 & M1 & R1 & S1 & X1).
    destruct (IH st1 f1 rest R1 X1) as (st2 & f2 & E2 & F2 & M2 & R2 & S2 & X2).
    exists st2, f2. cbn [map execs]. rewrite E1.
    split; [exact E2|]. split; [congruence|]. split; [congruence|]. split; [exact R2|].
    split; [eapply same_hdr_trans; eauto|exact X2].
Qed.

(** Flushing a growing child that holds prefix placeholder and contents [c]. *)
Lemma flush1_grow_lp : forall st c b rest l k body, fixed st = false -> frames st = c :: b :: rest ->
  f_err c = None -> f_off c = zlen l -> f_pll c = k -> f_asn1 c = false -> 1 <= k <= 4 ->
  shows st c ((l ++ repeat 0 (Z.to_nat k)) ++ body) ->
  exists st' b', flush1 st = (st', None) /\ fixed st' = false /\ frames st' = b' :: rest /\
    same_hdr b b' /\
    (if zlen body <? 256 ^ k
     then f_err b' = f_err b /\ shows st' b' (l ++ be_enc (Z.to_nat k) (zlen body) ++ body)
     else f_err b' <> None).
Proof.
  intros st c b rest l k body Hf Hfr He Ho Hp Ha Hk [HL [junk Hm]].
  rewrite !zlen_app, zlen_repeat in HL. rewrite Z2Nat.id in HL by lia.
  pose proof (zlen_nonneg _ body) as Nb. pose proof (zlen_nonneg _ l) as Nl.
  unfold flush1. rewrite Hfr, He, Ho, Hp, HL, Ha.
  replace (zlen l + k + zlen body - k - zlen l) with (zlen body) by lia.
  destruct (Z.ltb_spec (zlen body) 0); [lia|].
  destruct (Z.ltb_spec (zlen l + k + zlen body) (zlen l + k)); [lia|].
  rewrite andb_false_r. rewrite Z.shiftr_div_pow2 by lia. rewrite <- pow256 by lia.
  assert (HS : splice (mem st) (zlen l) (be_enc (Z.to_nat k) (zlen body))
               = l ++ be_enc (Z.to_nat k) (zlen body) ++ body ++ junk).
  { rewrite Hm, <- !app_assoc. apply splice_mid; [reflexivity|].
    rewrite zlen_repeat, zlen_be_enc. reflexivity. }
  cbn [set_mem mem fixed]. rewrite HS, Hf.
  destruct (Z.ltb_spec (zlen body) (256 ^ k)) as [B|B].
  - rewrite Z.div_small by lia. cbn [Z.eqb negb].
    eexists _, _. split; [reflexivity|]. cbn [set_frames set_mem fixed frames mem].
    split; [exact Hf|]. split; [reflexivity|]. split; [repeat split|].
    split; [reflexivity|]. split; [|exists junk; cbn; rewrite <- !app_assoc; reflexivity].
    cbn. rewrite !zlen_app, zlen_be_enc, Z2Nat.id by lia. lia.
  - destruct (Z.eqb_spec (zlen body / 256 ^ k) 0) as [E|E].
    { apply Z.div_small_iff in E; [|pose proof (pow256_pos k); lia].
      pose proof (pow256_pos k). lia. }
    cbn [negb]. eexists _, _. split; [reflexivity|]. cbn.
    split; [exact Hf|]. split; [reflexivity|]. split; [repeat split|discriminate].
Qed.

Lemma flush1_grow_asn1 : forall st c b rest l body, fixed st = false -> frames st = c :: b :: rest ->
  f_err c = None -> f_off c = zlen l -> f_pll c = 1 -> f_asn1 c = true ->
  shows st c ((l ++ [0]) ++ body) ->
  exists st' b', flush1 st = (st', None) /\ fixed st' = false /\ frames st' = b' :: rest /\
    same_hdr b b' /\
    (if zlen body <=? 2 ^ 32 - 2
     then f_err b' = f_err b /\ shows st' b' (l ++ der_len (zlen body) ++ body)
     else f_err b' <> None).
Proof.
  intros st c b rest l body Hf Hfr He Ho Hp Ha [HL [junk Hm]].
  rewrite !zlen_app in HL. change (zlen [0]) with 1 in HL.
  pose proof (zlen_nonneg _ body) as Nb. pose proof (zlen_nonneg _ l) as Nl.
  unfold flush1. rewrite Hfr, He, Ho, Hp, HL, Ha.
  replace (zlen l + 1 + zlen body - 1 - zlen l) with (zlen body) by lia.
  destruct (Z.ltb_spec (zlen body) 0); [lia|]. cbn [Z.eqb Pos.eqb negb].
  destruct (Z.leb_spec (zlen body) (2 ^ 32 - 2)) as [B|B].
  2:{ unfold asn1LenBytes. destruct (Z.ltb_spec 0xfffffffe (zlen body)); [|lia].
      eexists _, _. split; [reflexivity|]. cbn.
      split; [exact Hf|]. split; [reflexivity|]. split; [repeat split|discriminate]. }
  destruct (asn1LenBytes_der (zlen body) ltac:(lia)) as (ll & lb & n' & -> & C).
  destruct (Z.leb_spec (zlen l + 1 + zlen body) (zlen l)); [lia|].
  assert (HS : splice (mem st) (zlen l) [lb] = l ++ [lb] ++ body ++ junk).
  { rewrite Hm, <- !app_assoc. apply splice_mid; reflexivity. }
  cbn [set_mem mem fixed]. rewrite HS, Hf. cbn [andb].
  destruct C as [(C1 & -> & -> & -> & C2)|(C1 & Cll & -> & C3 & C4 & C5)].
  - cbn [Z.sub Z.eqb Z.ltb Z.opp Z.add Z.pos_sub Z.compare negb andb].
    change (1 - 1) with 0. cbn [Z.eqb negb Z.ltb Z.compare andb].
    change (be_enc (Z.to_nat 0) 0) with (@nil Z). cbn [set_mem mem fixed]. rewrite splice_nil.
    change (Z.shiftr 0 (8 * 0)) with 0. cbn [Z.eqb negb]. rewrite ?Hf.
    eexists _, _. split; [reflexivity|]. cbn [set_frames set_mem fixed frames mem].
    split; [exact Hf|]. split; [reflexivity|]. split; [repeat split|].
    split; [reflexivity|]. rewrite C2. split; [|exists junk; cbn; rewrite <- !app_assoc; reflexivity].
    cbn [set_len f_len]. rewrite !zlen_app, zlen_cons, zlen_nil. lia.
  - destruct (Z.eqb_spec (ll - 1) 0); [lia|]. cbn [negb].
    destruct (Z.ltb_spec (zlen l + 1 + zlen body + (ll - 1)) (zlen l + 1 + (ll - 1))); [lia|].
    cbn [set_mem mem fixed].
    set (m1 := mkB (l ++ [lb] ++ body ++ junk) (fixed st) (b_cap st) (frames st)).
    assert (W : write m1 (zlen l + 1 + zlen body) (repeat 0 (Z.to_nat (ll - 1)))
                = (l ++ [lb]) ++ body ++ repeat 0 (Z.to_nat (ll - 1))).
    { replace (zlen l + 1 + zlen body) with (zlen ((l ++ [lb]) ++ body))
        by (rewrite !zlen_app; reflexivity).
      rewrite (write_grow m1 _ junk); [rewrite <- !app_assoc; reflexivity|exact Hf|].
      unfold m1. cbn [mem]. rewrite <- !app_assoc. reflexivity. }
    unfold m1 in W. unfold set_mem. cbn [mem fixed b_cap frames]. rewrite W.
    replace (zlen l + 1 + zlen body + (ll - 1) - (zlen l + 1 + (ll - 1))) with (zlen body) by lia.
    assert (S1 : sub ((l ++ [lb]) ++ body ++ repeat 0 (Z.to_nat (ll - 1))) (zlen l + 1)
                   (zlen l + 1 + zlen body) = body).
    { apply sub_mid; rewrite zlen_app; reflexivity. }
    rewrite S1.
    (* the contents have moved by ll-1 bytes *)
    assert (S2 : exists gap, zlen gap = ll - 1 /\
              splice ((l ++ [lb]) ++ body ++ repeat 0 (Z.to_nat (ll - 1))) (zlen l + 1 + (ll - 1)) body
              = (l ++ [lb]) ++ gap ++ body).
    { assert (HT : zlen (body ++ repeat 0 (Z.to_nat (ll - 1))) = zlen body + (ll - 1))
        by (rewrite zlen_app, zlen_repeat; lia).
      destruct (split_at _ (body ++ repeat 0 (Z.to_nat (ll - 1))) (ll - 1) ltac:(lia)) as (g & t & E & Hg).
      exists g. split; [exact Hg|]. rewrite E.
      assert (Ht : zlen t = zlen body) by (rewrite E, zlen_app in HT; lia).
      replace ((l ++ [lb]) ++ g ++ t) with (((l ++ [lb]) ++ g) ++ t ++ []) by (rewrite app_nil_r, <- !app_assoc; reflexivity).
      rewrite splice_mid; [rewrite app_nil_r, <- !app_assoc; reflexivity| |exact Ht].
      rewrite !zlen_app, Hg. reflexivity. }
    destruct S2 as (gap & Hg & S2). rewrite S2.
    destruct (Z.ltb_spec (zlen l + 1 + zlen body + (ll - 1)) (zlen l + 1 + (ll - 1))); [lia|].
    rewrite andb_false_r. rewrite C4.
    assert (S3 : splice ((l ++ [lb]) ++ gap ++ body) (zlen l + 1) (be_min (zlen body))
                 = (l ++ [lb]) ++ be_min (zlen body) ++ body).
    { apply splice_mid; [rewrite zlen_app; reflexivity|lia]. }
    rewrite S3.
    destruct (Z.eqb_spec (Z.shiftr (zlen body) (8 * (ll - 1))) 0) as [|E].
    2:{ exfalso. apply E. rewrite Z.shiftr_div_pow2 by lia. rewrite <- pow256 by lia.
        apply Z.div_small. split; [lia|]. rewrite <- C3.
        pose proof (be_dec_bound (be_min (zlen body)) (be_min_bytes _)) as D.
        rewrite be_dec_min in D by lia. lia. }
    cbn [negb]. rewrite ?Hf. eexists _, _. split; [reflexivity|]. cbn [set_frames set_mem fixed frames mem].
    split; [reflexivity|]. split; [reflexivity|]. split; [repeat split|].
    split; [reflexivity|]. rewrite C5.
    split; [|exists []; cbn; rewrite app_nil_r, <- !app_assoc; reflexivity].
    cbn [set_len f_len]. rewrite !zlen_app, zlen_cons. lia.
Qed.

Lemma enter_grow : forall st f rest l k a, fixed st = false -> frames st = f :: rest ->
  f_err f = None -> shows st f l -> 0 <= k ->
  exists st' f1 c, enter st k a = st' /\ fixed st' = false /\ frames st' = c :: f1 :: rest /\
    same_hdr f f1 /\ f_err f1 = None /\ f_err c = None /\ f_off c = zlen l /\ f_pll c = k /\
    f_asn1 c = a /\ shows st' c (l ++ repeat 0 (Z.to_nat k)).
Proof.
  intros st f rest l k a Hf Hfr He HS Hk. unfold enter. rewrite Hfr.
  destruct (add_grow st f rest l (repeat 0 (Z.to_nat k)) Hf Hfr He HS)
    as (st1 & f1 & -> & F1 & R1 & S1 & X1 & H1).
  rewrite R1. eexists _, f1, _. split; [reflexivity|]. cbn [set_frames fixed frames].
  split; [exact F1|]. split; [reflexivity|]. split; [exact S1|]. split; [exact X1|].
  split; [reflexivity|]. destruct HS as [HL _]. cbn [f_off f_pll f_asn1 f_len].
  split; [exact HL|]. split; [reflexivity|]. split; [reflexivity|]. exact H1.
Qed.

Lemma leave_ok : forall depth st c b rest, frames st = c :: b :: rest -> S (List.length rest) = depth ->
  leave depth (st, None) = flush1 st.
Proof.
  intros depth st c b rest Hfr Hd. unfold leave. rewrite Hfr. cbn [List.length].
  replace (S (S (List.length rest)) - depth)%nat with 1%nat by lia.
  cbn [flush]. destruct (flush1 st) as [st' [k|]]; reflexivity.
Qed.

Definition grows (i : item) : Prop :=
  wf_item i -> forall st f rest l, fixed st = false -> frames st = f :: rest -> f_err f = None ->
  shows st f l -> grown (ser i) f rest l (exec (call i) st).
Definition growss (is : list item) : Prop :=
  wf_items is -> forall st f rest l, fixed st = false -> frames st = f :: rest -> f_err f = None ->
  shows st f l -> grown (sers is) f rest l (execs (map call is) st).

(** A length-prefixed call whose continuation writes the items [is]. *)
Lemma addLP_grow : forall is st f rest l k a, growss is -> wf_items is ->
  fixed st = false -> frames st = f :: rest -> f_err f = None -> shows st f l ->
  (a = true -> k = 1) -> 1 <= k <= 4 ->
  grown (match sers is with
         | None => None
         | Some c => if a then (if zlen c <=? 2 ^ 32 - 2 then Some (der_len (zlen c) ++ c) else None)
                     else (if zlen c <? 256 ^ k then Some (be_enc (Z.to_nat k) (zlen c) ++ c) else None)
         end) f rest l (addLP 0 k a (map call is) st).
Proof.
  intros is st f rest l k a IH W Hf Hfr He HS Ha Hk. unfold addLP. rewrite Hfr. cbn [nth_error].
  rewrite He. cbn [Nat.eqb negb].
  destruct (enter_grow st f rest l k a Hf Hfr He HS ltac:(lia))
    as (st1 & f1 & c & -> & F1 & R1 & Hd1 & X1 & Xc & Oc & Pc & Ac & S1).
  destruct (IH W st1 c (f1 :: rest) _ F1 R1 Xc S1) as (st2 & c2 & -> & F2 & R2 & (D1 & D2 & D3) & H2).
  rewrite (leave_ok (List.length (f :: rest)) st2 c2 f1 rest R2 eq_refl).
  destruct (sers is) as [body|].
  - destruct H2 as [X2 S2]. destruct a.
    + rewrite (Ha eq_refl) in *. change (repeat 0 (Z.to_nat 1)) with [0] in S2.
      destruct (flush1_grow_asn1 st2 c2 f1 rest l body F2 R2 X2) as (st3 & b & -> & F3 & R3 & Hd3 & H3);
        [congruence|congruence|congruence|exact S2|].
      exists st3, b. split; [reflexivity|]. split; [exact F3|]. split; [exact R3|].
      split; [eapply same_hdr_trans; eauto|].
      destruct (zlen body <=? 2 ^ 32 - 2); [|exact H3]. rewrite X1 in H3. exact H3.
    + destruct (flush1_grow_lp st2 c2 f1 rest l k body F2 R2 X2) as (st3 & b & -> & F3 & R3 & Hd3 & H3);
        [congruence|congruence|congruence|exact Hk|exact S2|].
      exists st3, b. split; [reflexivity|]. split; [exact F3|]. split; [exact R3|].
      split; [eapply same_hdr_trans; eauto|].
      destruct (zlen body <? 256 ^ k); [|exact H3]. rewrite X1 in H3. exact H3.
  - unfold flush1. rewrite R2. destruct (f_err c2) as [e|] eqn:E; [|contradiction].
    eexists _, _. split; [reflexivity|]. cbn [set_frames fixed frames].
    split; [exact F2|]. split; [reflexivity|]. split; [|discriminate].
    eapply same_hdr_trans; [exact Hd1|]. repeat split.
Qed.

Lemma grow_all : (forall i, grows i) /\ (forall is, growss is).
Proof.
  assert (Hb : forall bs, grows (IBytes bs)).
  { intros bs _ st f rest l Hf Hfr He HS. apply add_grow; auto. }
  assert (Hl : forall k is, growss is -> grows (ILP k is)).
  { intros k is IH W st f rest l Hf Hfr He HS. apply wf_ILP in W. destruct W as [Hk W].
    rewrite ser_ILP. cbn [call]. rewrite exec_OLP.
    apply (addLP_grow is st f rest l k false IH W Hf Hfr He HS); [discriminate|exact Hk]. }
  assert (Ha : forall t is, growss is -> grows (IASN1 t is)).
  { intros t is IH W st f rest l Hf Hfr He HS. apply wf_IASN1 in W.
    rewrite ser_IASN1. cbn [call]. rewrite exec_OASN1. rewrite Hfr. cbn [nth_error]. rewrite He, land_1f.
    destruct (Z.eqb_spec (t mod 32) 31).
    - unfold grown. eexists _, _. split; [reflexivity|]. cbn. rewrite Hfr. cbn.
      split; [exact Hf|]. split; [reflexivity|]. split; [repeat split|discriminate].
    - destruct (add_grow st f rest l [t] Hf Hfr He HS) as (st1 & f1 & -> & F1 & R1 & Hd1 & X1 & S1).
      destruct (addLP_grow is st1 f1 rest (l ++ [t]) 1 true IH W F1 R1 X1 S1)
        as (st2 & f2 & -> & F2 & R2 & Hd2 & H2); [reflexivity|lia|].
      exists st2, f2. split; [reflexivity|]. split; [exact F2|]. split; [exact R2|].
      split; [eapply same_hdr_trans; eauto|].
      destruct (sers is) as [c|]; [|exact H2]. destruct (zlen c <=? 2 ^ 32 - 2); [|exact H2].
      rewrite <- app_assoc in H2. exact H2. }
  assert (He : forall e, grows (IErr e)).
  { intros e _ st f rest l Hf Hfr Hx HS. cbn [call exec ser]. rewrite Hfr. cbn [nth_error].
    unfold grown. eexists _, _. split; [reflexivity|]. cbn. rewrite Hfr. cbn.
    split; [exact Hf|]. split; [reflexivity|]. split; [repeat split|discriminate]. }
  assert (Hn : growss []).
  { intros _ st f rest l Hf Hfr Hx HS. cbn. exists st, f. split; [reflexivity|]. split; [exact Hf|].
    split; [exact Hfr|]. split; [apply same_hdr_refl|]. rewrite app_nil_r. auto. }
  assert (Hc : forall i is, grows i -> growss is -> growss (i :: is)).
  { intros i is IHi IHs [Wi Ws] st f rest l Hf Hfr Hx HS. cbn [map execs sers].
    destruct (IHi Wi st f rest l Hf Hfr Hx HS) as (st1 & f1 & -> & F1 & R1 & Hd1 & H1).
    destruct (ser i) as [e|].
    - destruct H1 as [X1 S1].
      destruct (IHs Ws st1 f1 rest _ F1 R1 X1 S1) as (st2 & f2 & -> & F2 & R2 & Hd2 & H2).
      exists st2, f2. split; [reflexivity|]. split; [exact F2|]. split; [exact R2|].
      split; [eapply same_hdr_trans; eauto|].
      destruct (sers is) as [e2|]; [|exact H2]. rewrite <- app_assoc in H2. exact H2.
    - destruct (errs_inert is st1 f1 rest R1 H1) as (st2 & f2 & -> & F2 & _ & R2 & Hd2 & X2).
      exists st2, f2. split; [reflexivity|]. split; [congruence|]. split; [exact R2|].
      split; [eapply same_hdr_trans; eauto|exact X2]. }
  split; [intro i; apply (item_ind2 grows growss)|intro is; apply (items_ind2 grows growss)]; auto.
Qed.
