(** Fixed-size builders, and facts about arbitrary sequences of calls. *)
From Coq Require Import ZArith List Lia Bool String.
From Verif Require Import GoBase BeMin CbString CbStringProofs CbBuilder CbBuilderProofs.
Import ListNotations.
Open Scope Z_scope.

(** * What a fixed-size builder does with a tree of values *)

(** For an item written to a fixed-size builder: the room it needs beyond what the builder holds,
    and the bytes the builder holds more afterwards.  Of a length-prefixed group only the prefix
    stays, of an element only the identifier and the first length octet; the contents need room
    while the continuation runs. *)
Fixpoint serF (i : item) : option (Z * list Z) :=
  let fix sersF (l : list item) : option (Z * list Z) :=
    match l with
    | [] => Some (0, [])
    | i :: r => match serF i, sersF r with
                | Some (n1, a), Some (n2, b) => Some (Z.max n1 (zlen a + n2), a ++ b)
                | _, _ => None
                end
    end in
  match i with
  | IBytes bs => Some (zlen bs, bs)
  | ILP k l => match sersF l with
               | Some (n, c) => if zlen c <? 256 ^ k then Some (k + n, be_enc (Z.to_nat k) (zlen c)) else None
               | None => None
               end
  | IASN1 t l => if t mod 32 =? 31 then None
                 else match sersF l with
                      | Some (n, c) => if zlen c <=? 2 ^ 32 - 2
                                       then Some (2 + n, [t; hd 0 (der_len (zlen c))]) else None
                      | None => None
                      end
  | IErr _ => None
  end.
Fixpoint sersF (l : list item) : option (Z * list Z) :=
  match l with
  | [] => Some (0, [])
  | i :: r => match serF i, sersF r with
              | Some (n1, a), Some (n2, b) => Some (Z.max n1 (zlen a + n2), a ++ b)
              | _, _ => None
              end
  end.

Lemma serF_ILP : forall k l, serF (ILP k l) =
  match sersF l with
  | Some (n, c) => if zlen c <? 256 ^ k then Some (k + n, be_enc (Z.to_nat k) (zlen c)) else None
  | None => None
  end.
Proof. reflexivity. Qed.
Lemma serF_IASN1 : forall t l, serF (IASN1 t l) =
  if t mod 32 =? 31 then None
  else match sersF l with
       | Some (n, c) => if zlen c <=? 2 ^ 32 - 2
                        then Some (2 + n, [t; hd 0 (der_len (zlen c))]) else None
       | None => None
       end.
Proof. reflexivity. Qed.

(** The room needed covers the bytes that stay. *)
Lemma need_ge : 
  (forall i, wf_item i -> forall n v, serF i = Some (n, v) -> zlen v <= n) /\
  (forall l, wf_items l -> forall n v, sersF l = Some (n, v) -> zlen v <= n).
Proof.
  set (P := fun i => wf_item i -> forall n v, serF i = Some (n, v) -> zlen v <= n).
  set (Q := fun l => wf_items l -> forall n v, sersF l = Some (n, v) -> zlen v <= n).
  assert (Hb : forall bs, P (IBytes bs)).
  { intros bs _ n v H. cbn in H. injection H as <- <-. lia. }
  assert (Hl : forall k l, Q l -> P (ILP k l)).
  { intros k l IH W n v H. apply wf_ILP in W. destruct W as [Hk W]. rewrite serF_ILP in H.
    destruct (sersF l) as [[n1 c]|] eqn:E; [|discriminate].
    specialize (IH W n1 c E). pose proof (zlen_nonneg _ c).
    destruct (zlen c <? 256 ^ k); [|discriminate]. injection H as <- <-.
    rewrite zlen_be_enc. lia. }
  assert (Ha : forall t l, Q l -> P (IASN1 t l)).
  { intros t l IH W n v H. apply wf_IASN1 in W. rewrite serF_IASN1 in H.
    destruct (t mod 32 =? 31); [discriminate|].
    destruct (sersF l) as [[n1 c]|] eqn:E; [|discriminate].
    specialize (IH W n1 c E). pose proof (zlen_nonneg _ c).
    destruct (zlen c <=? 2 ^ 32 - 2); [|discriminate].
    remember (2 + n1) as x eqn:Hx. injection H as <- <-.
    rewrite !zlen_cons, zlen_nil. lia. }
  assert (He : forall e, P (IErr e)) by (intros e _ n v H; discriminate).
  assert (Hn : Q []).
  { intros _ n v H. cbn in H. injection H as <- <-. rewrite zlen_nil. lia. }
  assert (Hc : forall i l, P i -> Q l -> Q (i :: l)).
  { intros i l IHi IHl [Wi Wl] n v H. cbn [sersF] in H.
    destruct (serF i) as [[n1 a]|] eqn:E1; [|discriminate].
    destruct (sersF l) as [[n2 b]|] eqn:E2; [|discriminate].
    specialize (IHi Wi _ _ E1). specialize (IHl Wl _ _ E2).
    remember (Z.max n1 (zlen a + n2)) as x eqn:Hx. injection H as <- <-. rewrite zlen_app. lia. }
  split; [intro i; apply (item_ind2 P Q)|intro l; apply (items_ind2 P Q)]; auto.
Qed.

(** The call succeeded; builder [f] held [l] and now holds [l ++ v]. *)
Definition fixed_ok (st : bstate) (v : list Z) (f : frame) (rest : list frame) (l : list Z) (o : outcome) : Prop :=
  exists st' f', o = (st', None) /\ fixed st' = true /\ b_cap st' = b_cap st /\
    zlen (mem st') = zlen (mem st) /\ frames st' = f' :: rest /\ same_hdr f f' /\
    f_err f' = None /\ shows st' f' (l ++ v).

(** The call recorded an error, or panicked with the builder's internal error. *)
Definition fixed_bad (f : frame) (rest : list frame) (o : outcome) : Prop :=
  (exists st' f', o = (st', None) /\ frames st' = f' :: rest /\ same_hdr f f' /\ f_err f' <> None) \/
  (exists st', o = (st', Some (PUser "cryptobyte: internal error"))).

Lemma add_fixed : forall st f rest l bs, fixed st = true -> frames st = f :: rest ->
  f_err f = None -> shows st f l -> b_cap st <= zlen (mem st) ->
  if zlen l + zlen bs <=? b_cap st then fixed_ok st bs f rest l (add st 0 bs)
  else exists e, add st 0 bs = (put_frame st 0 (set_err f e), None).
Proof.
  intros st f rest l bs Hf Hfr He [HL [junk Hm]] HC. unfold add. rewrite Hfr. cbn [nth_error].
  rewrite He, Hf, HL. cbn [Nat.eqb negb andb].
  destruct (Z.leb_spec (zlen l + zlen bs) (b_cap st)) as [B|B].
  - destruct (Z.ltb_spec (b_cap st) (zlen l + zlen bs)); [lia|].
    assert (HJ : zlen bs <= zlen junk) by (rewrite Hm, zlen_app in HC; lia).
    pose proof (zlen_nonneg _ bs).
    destruct (split_at _ junk (zlen bs) ltac:(lia)) as (j1 & j2 & -> & Hj).
    assert (HS : splice (mem st) (zlen l) bs = l ++ bs ++ j2).
    { rewrite Hm. apply splice_mid; auto. }
    eexists _, _. split; [reflexivity|]. cbn [put_frame set_frames set_mem fixed frames mem b_cap].
    unfold write. rewrite Hf, Hfr, HS. cbn [upd].
    split; [reflexivity|]. split; [reflexivity|].
    split; [rewrite Hm, !zlen_app; lia|]. split; [reflexivity|]. split; [repeat split|].
    split; [exact He|]. split; [cbn; rewrite zlen_app; lia|]. exists j2. cbn.
    rewrite <- app_assoc. reflexivity.
  - destruct (Z.ltb_spec (b_cap st) (zlen l + zlen bs)); [|lia]. eexists. reflexivity.
Qed.

Lemma splice_after : forall A (a h x : list A) o, zlen a <= o -> o + zlen x <= zlen (a ++ h) ->
  exists h', splice (a ++ h) o x = a ++ h' /\ zlen h' = zlen h.
Proof.
  intros A a h x o H1 H2. pose proof (zlen_nonneg _ a). rewrite zlen_app in H2.
  pose proof (zlen_nonneg _ x).
  destruct (split_at _ h (o - zlen a) ltac:(lia)) as (h1 & h2 & -> & L1).
  rewrite zlen_app in H2.
  destruct (split_at _ h2 (zlen x) ltac:(lia)) as (h3 & h4 & -> & L3).
  exists (h1 ++ x ++ h4). split.
  - rewrite app_assoc, splice_mid; [rewrite <- app_assoc; reflexivity| |exact L3].
    rewrite zlen_app. lia.
  - rewrite !zlen_app. lia.
Qed.

(** Flushing a fixed child whose placeholder was reserved: the parent keeps its length. *)
Lemma flush1_fixed : forall st c b rest l k a v, fixed st = true -> frames st = c :: b :: rest ->
  f_err c = None -> f_off c = zlen l -> f_pll c = k -> f_asn1 c = a -> (a = true -> k = 1) ->
  1 <= k <= 4 -> f_err b = None -> f_len b = zlen l + k ->
  shows st c ((l ++ repeat 0 (Z.to_nat k)) ++ v) ->
  zlen l + k + zlen v <= b_cap st -> b_cap st <= zlen (mem st) ->
  if (if a then zlen v <=? 2 ^ 32 - 2 else zlen v <? 256 ^ k)
  then fixed_ok st (if a then [hd 0 (der_len (zlen v))] else be_enc (Z.to_nat k) (zlen v)) b rest l (flush1 st)
  else fixed_bad b rest (flush1 st).
Proof.
  intros st c b rest l k a v Hf Hfr He Ho Hp Ha Hak Hk Hbe Hbl [HL [junk Hm]] HC1 HC2.
  rewrite !zlen_app, zlen_repeat in HL. rewrite Z2Nat.id in HL by lia.
  pose proof (zlen_nonneg _ v) as Nb. pose proof (zlen_nonneg _ l) as Nl.
  unfold flush1. rewrite Hfr, He, Ho, Hp, HL, Ha.
  replace (zlen l + k + zlen v - k - zlen l) with (zlen v) by lia.
  destruct (Z.ltb_spec (zlen v) 0); [lia|].
  destruct a.
  - rewrite (Hak eq_refl) in *. clear Hak. cbn [Z.eqb Pos.eqb negb].
    change (repeat 0 (Z.to_nat 1)) with [0] in Hm.
    destruct (Z.leb_spec (zlen v) (2 ^ 32 - 2)) as [B|B].
    2:{ left. unfold asn1LenBytes. destruct (Z.ltb_spec 0xfffffffe (zlen v)); [|lia].
        eexists _, _. split; [reflexivity|]. cbn. split; [reflexivity|]. split; [repeat split|discriminate]. }
    destruct (asn1LenBytes_der (zlen v) ltac:(lia)) as (ll & lb & n' & -> & C).
    destruct (Z.leb_spec (zlen l + 1 + zlen v) (zlen l)); [lia|].
    assert (HS : splice (mem st) (zlen l) [lb] = (l ++ [lb]) ++ v ++ junk).
    { rewrite Hm, <- !app_assoc. apply splice_mid; reflexivity. }
    assert (HZ : zlen (mem st) = zlen l + 1 + zlen v + zlen junk).
    { rewrite Hm, !zlen_app. reflexivity. }
    assert (Hlb : zlen (l ++ [lb]) = zlen l + 1) by (rewrite zlen_app; reflexivity).
    cbn [set_mem mem fixed]. rewrite HS, Hf. cbn [andb].
    assert (HD : hd 0 (der_len (zlen v)) = lb).
    { destruct C as [(C1 & -> & -> & -> & C2)|(C1 & Cll & -> & C3 & C4 & C5)].
      - rewrite C2. reflexivity.
      - rewrite C5. reflexivity. }
    rewrite HD.
    (* whatever happens behind it, the buffer starts with l and the length octet *)
    assert (FIN : forall m, (exists h', m = (l ++ [lb]) ++ h' /\ zlen h' = zlen v + zlen junk) ->
              fixed_ok st [lb] b rest l
                (mkB m true (b_cap st) (b :: rest), None)).
    { intros m (h' & -> & Hh). eexists _, b. split; [reflexivity|]. cbn [fixed b_cap mem frames].
      split; [reflexivity|]. split; [reflexivity|].
      split; [rewrite zlen_app, Hlb, Hh, HZ; lia|]. split; [reflexivity|].
      split; [apply same_hdr_refl|]. split; [exact Hbe|].
      split; [rewrite Hbl, Hlb; reflexivity|]. exists h'. reflexivity. }
    destruct C as [(C1 & -> & -> & -> & C2)|(C1 & Cll & -> & C3 & C4 & C5)].
    + change (1 - 1) with 0. cbn [Z.eqb negb Z.ltb Z.compare andb].
      change (be_enc (Z.to_nat 0) 0) with (@nil Z). cbn [set_mem mem fixed]. rewrite splice_nil.
      change (Z.shiftr 0 (8 * 0)) with 0. cbn [Z.eqb negb]. unfold set_frames, set_mem.
      cbn [mem fixed b_cap frames]. rewrite ?Hf. apply FIN. exists (v ++ junk). rewrite zlen_app. auto.
    + destruct (Z.eqb_spec (ll - 1) 0); [lia|]. cbn [negb].
      assert (SH : Z.shiftr (zlen v) (8 * (ll - 1)) = 0).
      { rewrite Z.shiftr_div_pow2 by lia. rewrite <- pow256 by lia.
        apply Z.div_small. split; [lia|]. rewrite <- C3.
        pose proof (be_dec_bound (be_min (zlen v)) (be_min_bytes _)) as D.
        rewrite be_dec_min in D by lia. lia. }
      cbn [set_mem mem fixed b_cap].
      destruct (Z.ltb_spec (b_cap st) (zlen l + 1 + zlen v + (ll - 1))) as [R|R].
      * (* no room for the extra length octets: the failing add is ignored *)
        destruct (Z.ltb_spec (zlen l + 1 + zlen v) (zlen l + 1 + (ll - 1))); [lia|].
        cbn [set_mem mem fixed b_cap].
        destruct (splice_after _ (l ++ [lb]) (v ++ junk)
                    (sub ((l ++ [lb]) ++ v ++ junk) (zlen l + 1)
                       (zlen l + 1 + (zlen l + 1 + zlen v - (zlen l + 1 + (ll - 1)))))
                    (zlen l + 1 + (ll - 1))) as (h1 & E1 & L1).
        { lia. }
        { rewrite sub_length by (rewrite ?zlen_app, ?Hlb, ?zlen_app, ?L0; change (zlen [lb]) with 1; pose proof (zlen_nonneg _ junk); lia).
          rewrite !zlen_app. change (zlen [lb]) with 1. pose proof (zlen_nonneg _ junk). lia. }
        rewrite E1.
        destruct (Z.ltb_spec (zlen l + 1 + zlen v) (zlen l + 1 + (ll - 1))); [lia|].
        rewrite andb_false_r. rewrite zlen_app in L1.
        destruct (splice_after _ (l ++ [lb]) h1 (be_enc (Z.to_nat (ll - 1)) (zlen v)) (zlen l + 1))
          as (h2 & E2 & L2).
        { lia. }
        { rewrite zlen_be_enc, zlen_app, Hlb, L1. pose proof (zlen_nonneg _ junk). lia. }
        rewrite E2, SH. cbn [Z.eqb negb]. unfold set_frames, set_mem. cbn [mem fixed b_cap frames].
        rewrite ?Hf. apply FIN. exists h2. split; [reflexivity|lia].
      * cbn [set_mem mem fixed b_cap].
        destruct (Z.ltb_spec (zlen l + 1 + zlen v + (ll - 1)) (zlen l + 1 + (ll - 1))); [lia|].
        unfold write, set_mem. cbn [fixed mem b_cap frames]. rewrite ?Hf.
        destruct (splice_after _ (l ++ [lb]) (v ++ junk) (repeat 0 (Z.to_nat (ll - 1)))
                    (zlen l + 1 + zlen v)) as (h0 & E0 & L0).
        { lia. }
        { rewrite zlen_repeat, !zlen_app. change (zlen [lb]) with 1. lia. }
        rewrite E0. rewrite zlen_app in L0.
        destruct (splice_after _ (l ++ [lb]) h0
                    (sub ((l ++ [lb]) ++ h0) (zlen l + 1)
                       (zlen l + 1 + (zlen l + 1 + zlen v + (ll - 1) - (zlen l + 1 + (ll - 1)))))
                    (zlen l + 1 + (ll - 1))) as (h1 & E1 & L1).
        { lia. }
        { rewrite sub_length by (rewrite ?zlen_app, ?Hlb, ?zlen_app, ?L0; change (zlen [lb]) with 1; pose proof (zlen_nonneg _ junk); lia).
          rewrite zlen_app, Hlb. lia. }
        rewrite E1.
        destruct (Z.ltb_spec (zlen l + 1 + zlen v + (ll - 1)) (zlen l + 1 + (ll - 1))); [lia|].
        rewrite andb_false_r.
        destruct (splice_after _ (l ++ [lb]) h1 (be_enc (Z.to_nat (ll - 1)) (zlen v)) (zlen l + 1))
          as (h2 & E2 & L2).
        { lia. }
        { rewrite zlen_be_enc, zlen_app, Hlb, L1, L0. pose proof (zlen_nonneg _ junk). lia. }
        rewrite E2, SH. cbn [Z.eqb negb]. unfold set_frames, set_mem. cbn [mem fixed b_cap frames].
        rewrite ?Hf. apply FIN. exists h2. split; [reflexivity|lia].
  - destruct (Z.ltb_spec (zlen l + k + zlen v) (zlen l + k)); [lia|].
    rewrite andb_false_r. rewrite Z.shiftr_div_pow2 by lia. rewrite <- pow256 by lia.
    assert (HS : splice (mem st) (zlen l) (be_enc (Z.to_nat k) (zlen v))
                 = l ++ be_enc (Z.to_nat k) (zlen v) ++ v ++ junk).
    { rewrite Hm, <- !app_assoc. apply splice_mid; [reflexivity|].
      rewrite zlen_repeat, zlen_be_enc. reflexivity. }
    cbn [set_mem mem fixed]. rewrite HS, Hf.
    destruct (Z.ltb_spec (zlen v) (256 ^ k)) as [B|B].
    + rewrite Z.div_small by lia. cbn [Z.eqb negb].
      eexists _, b. split; [reflexivity|]. cbn [set_frames set_mem fixed frames mem b_cap].
      split; [exact Hf|]. split; [reflexivity|].
      split; [rewrite Hm, !zlen_app, zlen_be_enc, zlen_repeat; lia|]. split; [reflexivity|].
      split; [apply same_hdr_refl|]. split; [exact Hbe|].
      split; [rewrite Hbl, zlen_app, zlen_be_enc, Z2Nat.id by lia; reflexivity|].
      exists (v ++ junk). cbn. rewrite <- app_assoc. reflexivity.
    + destruct (Z.eqb_spec (zlen v / 256 ^ k) 0) as [E|E].
      { apply Z.div_small_iff in E; [|pose proof (pow256_pos k); lia].
        pose proof (pow256_pos k). lia. }
      cbn [negb]. left. eexists _, _. split; [reflexivity|]. cbn.
      split; [reflexivity|]. split; [repeat split|discriminate].
Qed.

Definition fixes (i : item) : Prop :=
  wf_item i -> forall st f rest l, fixed st = true -> frames st = f :: rest -> f_err f = None ->
  shows st f l -> zlen l <= b_cap st -> b_cap st <= zlen (mem st) ->
  match serF i with
  | Some (n, v) => if zlen l + n <=? b_cap st then fixed_ok st v f rest l (exec (call i) st)
                   else fixed_bad f rest (exec (call i) st)
  | None => fixed_bad f rest (exec (call i) st)
  end.
Definition fixess (is : list item) : Prop :=
  wf_items is -> forall st f rest l, fixed st = true -> frames st = f :: rest -> f_err f = None ->
  shows st f l -> zlen l <= b_cap st -> b_cap st <= zlen (mem st) ->
  match sersF is with
  | Some (n, v) => if zlen l + n <=? b_cap st then fixed_ok st v f rest l (execs (map call is) st)
                   else fixed_bad f rest (execs (map call is) st)
  | None => fixed_bad f rest (execs (map call is) st)
  end.

(** Leaving a continuation that failed. *)
Lemma leave_bad : forall c b f rest o, f_err c = None -> same_hdr f b ->
  fixed_bad c (b :: rest) o -> fixed_bad f rest (leave (S (List.length rest)) o).
Proof.
  intros c b f rest o Hc Hd [(st & c' & -> & R & _ & X)|(st & ->)].
  - left. rewrite (leave_ok _ st c' b rest R eq_refl). unfold flush1. rewrite R.
    destruct (f_err c') as [e|]; [|contradiction].
    eexists _, _. split; [reflexivity|]. cbn. split; [reflexivity|]. split; [|discriminate].
    eapply same_hdr_trans; [exact Hd|]. repeat split.
  - right. exists st. reflexivity.
Qed.

Lemma addLP_fixed : forall is st f rest l k a, fixess is -> wf_items is ->
  fixed st = true -> frames st = f :: rest -> f_err f = None -> shows st f l ->
  zlen l <= b_cap st -> b_cap st <= zlen (mem st) ->
  (a = true -> k = 1) -> 1 <= k <= 4 ->
  match sersF is with
  | None => fixed_bad f rest (addLP 0 k a (map call is) st)
  | Some (n, v) =>
      if (zlen l + (k + n) <=? b_cap st) && (if a then zlen v <=? 2 ^ 32 - 2 else zlen v <? 256 ^ k)
      then fixed_ok st (if a then [hd 0 (der_len (zlen v))] else be_enc (Z.to_nat k) (zlen v))
             f rest l (addLP 0 k a (map call is) st)
      else fixed_bad f rest (addLP 0 k a (map call is) st)
  end.
Proof.
  intros is st f rest l k a IH W Hf Hfr He HS HC1 HC2 Hak Hk. unfold addLP. rewrite Hfr. cbn [nth_error].
  rewrite He. cbn [Nat.eqb negb]. change (List.length (f :: rest)) with (S (List.length rest)).
  pose proof (add_fixed st f rest l (repeat 0 (Z.to_nat k)) Hf Hfr He HS HC2) as AF.
  rewrite zlen_repeat, Z2Nat.id in AF by lia. unfold enter. rewrite Hfr.
  destruct (Z.leb_spec (zlen l + k) (b_cap st)) as [B|B].
  - destruct AF as (st1 & f1 & -> & F1 & C1 & M1 & R1 & Hd1 & X1 & S1). rewrite R1.
    set (c := mkFrame None (f_len f1) (f_len f) k a).
    set (st2 := set_frames st1 (c :: f1 :: rest)).
    assert (S2 : shows st2 c (l ++ repeat 0 (Z.to_nat k))) by exact S1.
    assert (HL2 : zlen (l ++ repeat 0 (Z.to_nat k)) = zlen l + k).
    { rewrite zlen_app, zlen_repeat, Z2Nat.id by lia. reflexivity. }
    specialize (IH W st2 c (f1 :: rest) _ F1 eq_refl eq_refl S2).
    change (b_cap st2) with (b_cap st1) in IH. change (mem st2) with (mem st1) in IH.
    rewrite HL2, C1, M1 in IH. specialize (IH B HC2).
    destruct (sersF is) as [[n v]|] eqn:E; [|apply (leave_bad c f1); auto].
    replace (zlen l + (k + n)) with (zlen l + k + n) by lia.
    destruct (Z.leb_spec (zlen l + k + n) (b_cap st)) as [Bn|Bn]; cbn [andb];
      [|apply (leave_bad c f1); auto].
    destruct IH as (st3 & c3 & -> & F3 & C3 & M3 & R3 & (D1 & D2 & D3) & X3 & S3).
    rewrite (leave_ok _ st3 c3 f1 rest R3 eq_refl).
    pose proof (proj2 need_ge is W n v E) as NG.
    destruct S1 as [L1 _]. rewrite HL2 in L1. destruct HS as [HL _].
    change (b_cap st2) with (b_cap st1) in C3. change (mem st2) with (mem st1) in M3.
    pose proof (flush1_fixed st3 c3 f1 rest l k a v F3 R3 X3) as FF.
    rewrite C3, M3, C1, M1 in FF.
    specialize (FF ltac:(rewrite D1; exact HL) D2 D3 Hak Hk X1 L1 S3 ltac:(lia) HC2).
    destruct (if a then zlen v <=? 2 ^ 32 - 2 else zlen v <? 256 ^ k).
    + destruct FF as (st4 & b4 & -> & F4 & C4 & M4 & R4 & Hd4 & X4 & S4).
      exists st4, b4. split; [reflexivity|]. split; [exact F4|]. split; [congruence|].
      split; [congruence|]. split; [exact R4|]. split; [eapply same_hdr_trans; eauto|]. auto.
    + destruct FF as [(st4 & b4 & -> & R4 & Hd4 & X4)|(st4 & ->)]; [left|right; eauto].
      exists st4, b4. split; [reflexivity|]. split; [exact R4|].
      split; [eapply same_hdr_trans; eauto|exact X4].
  - destruct AF as [e ->]. cbn [put_frame set_frames frames]. rewrite Hfr. cbn [upd].
    set (f1 := set_err f e). cbn [set_err f_len].
    set (c := mkFrame None (f_len f) (f_len f) k a).
    pose (st2 := set_frames (put_frame st 0 f1) (c :: f1 :: rest)).
    match goal with |- context [execs _ ?s] => change s with st2 end.
    assert (S2 : shows st2 c l) by exact HS.
    specialize (IH W st2 c (f1 :: rest) l Hf eq_refl eq_refl S2 HC1 HC2).
    change (b_cap st2) with (b_cap st) in IH.
    assert (Hd1 : same_hdr f f1) by (repeat split).
    destruct (sersF is) as [[n v]|] eqn:E; [|apply (leave_bad c f1); auto].
    destruct (Z.leb_spec (zlen l + (k + n)) (b_cap st)) as [Bx|_].
    { pose proof (proj2 need_ge is W n v E). pose proof (zlen_nonneg _ v). lia. }
    cbn [andb].
    destruct (Z.leb_spec (zlen l + n) (b_cap st)) as [Bn|Bn]; [|apply (leave_bad c f1); auto].
    destruct IH as (st3 & c3 & -> & F3 & C3 & M3 & R3 & (D1 & D2 & D3) & X3 & [L3 _]).
    right. rewrite (leave_ok _ st3 c3 f1 rest R3 eq_refl). exists st3. unfold flush1. rewrite R3, X3.
    destruct HS as [HL _].
    assert (HO : f_off c3 = zlen l) by (rewrite D1; exact HL).
    assert (HP : f_pll c3 = k) by (rewrite D2; reflexivity).
    rewrite HO, HP, L3, zlen_app. pose proof (proj2 need_ge is W n v E).
    destruct (Z.ltb_spec (zlen l + zlen v - k - zlen l) 0); [reflexivity|lia].
Qed.

Lemma fixed_all : (forall i, fixes i) /\ (forall is, fixess is).
Proof.
  assert (Hb : forall bs, fixes (IBytes bs)).
  { intros bs _ st f rest l Hf Hfr He HS HC1 HC2. cbn [call exec serF].
    pose proof (add_fixed st f rest l bs Hf Hfr He HS HC2) as AF.
    destruct (zlen l + zlen bs <=? b_cap st); [exact AF|].
    destruct AF as [e ->]. left. eexists _, _. split; [reflexivity|]. cbn. rewrite Hfr. cbn.
    split; [reflexivity|]. split; [repeat split|discriminate]. }
  assert (Hl : forall k is, fixess is -> fixes (ILP k is)).
  { intros k is IH W st f rest l Hf Hfr He HS HC1 HC2. apply wf_ILP in W. destruct W as [Hk W].
    rewrite serF_ILP. cbn [call]. rewrite exec_OLP.
    pose proof (addLP_fixed is st f rest l k false IH W Hf Hfr He HS HC1 HC2 ltac:(discriminate) Hk) as AF.
    destruct (sersF is) as [[n v]|]; [|exact AF].
    destruct (zlen v <? 256 ^ k); [rewrite andb_true_r in AF; exact AF|rewrite andb_false_r in AF; exact AF]. }
  assert (Ha : forall t is, fixess is -> fixes (IASN1 t is)).
  { intros t is IH W st f rest l Hf Hfr He HS HC1 HC2. apply wf_IASN1 in W.
    rewrite serF_IASN1. cbn [call]. rewrite exec_OASN1. rewrite Hfr. cbn [nth_error]. rewrite He, land_1f.
    destruct (Z.eqb_spec (t mod 32) 31) as [|NT].
    - left. eexists _, _. split; [reflexivity|]. cbn. rewrite Hfr. cbn.
      split; [reflexivity|]. split; [repeat split|discriminate].
    - pose proof (add_fixed st f rest l [t] Hf Hfr He HS HC2) as AF.
      change (zlen [t]) with 1 in AF.
      destruct (Z.leb_spec (zlen l + 1) (b_cap st)) as [B|B].
      + destruct AF as (st1 & f1 & -> & F1 & C1 & M1 & R1 & Hd1 & X1 & S1).
        assert (L1 : zlen (l ++ [t]) = zlen l + 1) by (rewrite zlen_app; reflexivity).
        pose proof (addLP_fixed is st1 f1 rest (l ++ [t]) 1 true IH W F1 R1 X1 S1) as LF.
        rewrite L1, C1, M1 in LF. specialize (LF B HC2 ltac:(reflexivity) ltac:(lia)).
        destruct (sersF is) as [[n v]|].
        * replace (zlen l + 1 + (1 + n)) with (zlen l + (2 + n)) in LF by lia.
          destruct (zlen v <=? 2 ^ 32 - 2).
          -- rewrite andb_true_r in LF. destruct (zlen l + (2 + n) <=? b_cap st).
             ++ destruct LF as (st2 & f2 & -> & F2 & C2 & M2 & R2 & Hd2 & X2 & S2).
                exists st2, f2. rewrite <- app_assoc in S2.
                split; [reflexivity|]. split; [exact F2|]. split; [congruence|]. split; [congruence|].
                split; [exact R2|]. split; [eapply same_hdr_trans; eauto|]. auto.
             ++ destruct LF as [(st2 & f2 & -> & R2 & Hd2 & X2)|(st2 & ->)]; [left|right; eauto].
                exists st2, f2. split; [reflexivity|]. split; [exact R2|].
                split; [eapply same_hdr_trans; eauto|exact X2].
          -- rewrite andb_false_r in LF.
             destruct LF as [(st2 & f2 & -> & R2 & Hd2 & X2)|(st2 & ->)]; [left|right; eauto].
             exists st2, f2. split; [reflexivity|]. split; [exact R2|].
             split; [eapply same_hdr_trans; eauto|exact X2].
        * destruct LF as [(st2 & f2 & -> & R2 & Hd2 & X2)|(st2 & ->)]; [left|right; eauto].
          exists st2, f2. split; [reflexivity|]. split; [exact R2|].
          split; [eapply same_hdr_trans; eauto|exact X2].
      + destruct AF as [e ->].
        assert (BAD : fixed_bad f rest (addLP 0 1 true (map call is) (put_frame st 0 (set_err f e)))).
        { left. unfold addLP. cbn [put_frame set_frames frames]. rewrite Hfr. cbn [upd nth_error set_err f_err].
          eexists _, _. split; [reflexivity|]. cbn. split; [rewrite Hfr; reflexivity|].
          split; [repeat split|discriminate]. }
        destruct (sersF is) as [[n' v]|] eqn:E; [|exact BAD].
        destruct (zlen v <=? 2 ^ 32 - 2); [|exact BAD].
        pose proof (proj2 need_ge is W n' v E). pose proof (zlen_nonneg _ v).
        destruct (Z.leb_spec (zlen l + (2 + n')) (b_cap st)); [lia|exact BAD]. }
  assert (He : forall e, fixes (IErr e)).
  { intros e _ st f rest l Hf Hfr Hx HS _ _. cbn [call exec serF]. rewrite Hfr. cbn [nth_error].
    left. eexists _, _. split; [reflexivity|]. cbn. rewrite Hfr. cbn.
    split; [reflexivity|]. split; [repeat split|discriminate]. }
  assert (Hn : fixess []).
  { intros _ st f rest l Hf Hfr Hx HS HC1 HC2. cbn [sersF map execs].
    destruct (Z.leb_spec (zlen l + 0) (b_cap st)); [|lia].
    exists st, f. rewrite app_nil_r. do 7 (split; [auto using same_hdr_refl|]). exact HS. }
  assert (Hc : forall i is, fixes i -> fixess is -> fixess (i :: is)).
  { intros i is IHi IHs [Wi Ws] st f rest l Hf Hfr Hx HS HC1 HC2. cbn [map execs sersF].
    specialize (IHi Wi st f rest l Hf Hfr Hx HS HC1 HC2).
    (* a failure of the first item stays a failure *)
    assert (BAD : fixed_bad f rest (exec (call i) st) ->
       fixed_bad f rest (match exec (call i) st with (st', None) => execs (map call is) st' | x => x end)).
    { intros [(st1 & f1 & -> & R1 & Hd1 & X1)|(st1 & ->)]; [left|right; eauto].
      destruct (errs_inert is st1 f1 rest R1 X1) as (st2 & f2 & -> & F2 & _ & R2 & Hd2 & X2).
      exists st2, f2. split; [reflexivity|]. split; [exact R2|].
      split; [eapply same_hdr_trans; eauto|exact X2]. }
    destruct (serF i) as [[n1 a]|] eqn:E1; [|apply BAD; exact IHi].
    pose proof (proj1 need_ge i Wi n1 a E1) as NG1.
    destruct (Z.leb_spec (zlen l + n1) (b_cap st)) as [B1|B1].
    - destruct IHi as (st1 & f1 & -> & F1 & C1 & M1 & R1 & Hd1 & X1 & S1).
      specialize (IHs Ws st1 f1 rest (l ++ a) F1 R1 X1 S1).
      rewrite zlen_app, C1, M1 in IHs. specialize (IHs ltac:(lia) HC2).
      assert (TR : fixed_bad f1 rest (execs (map call is) st1) -> fixed_bad f rest (execs (map call is) st1)).
      { intros [(st2 & f2 & -> & R2 & Hd2 & X2)|(st2 & ->)]; [left|right; eauto].
        exists st2, f2. split; [reflexivity|]. split; [exact R2|].
        split; [eapply same_hdr_trans; eauto|exact X2]. }
      destruct (sersF is) as [[n2 b]|]; [|auto].
      destruct (Z.leb_spec (zlen l + zlen a + n2) (b_cap st)) as [B2|B2].
      + destruct (Z.leb_spec (zlen l + Z.max n1 (zlen a + n2)) (b_cap st)); [|lia].
        destruct IHs as (st2 & f2 & -> & F2 & C2 & M2 & R2 & Hd2 & X2 & S2).
        exists st2, f2. rewrite <- app_assoc in S2.
        split; [reflexivity|]. split; [exact F2|]. split; [congruence|]. split; [congruence|].
        split; [exact R2|]. split; [eapply same_hdr_trans; eauto|]. auto.
      + destruct (Z.leb_spec (zlen l + Z.max n1 (zlen a + n2)) (b_cap st)); [lia|auto].
    - specialize (BAD IHi). destruct (sersF is) as [[n2 b]|]; [|exact BAD].
      destruct (Z.leb_spec (zlen l + Z.max n1 (zlen a + n2)) (b_cap st)); [lia|exact BAD]. }
  split; [intro i; apply (item_ind2 fixes fixess)|intro is; apply (items_ind2 fixes fixess)]; auto.
Qed.
