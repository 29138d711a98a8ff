(** cryptobyte/builder.go and AddASN1 of asn1.go once more, with builders as objects and slices as windows of arrays.
    CbBuilder.v has the same functions with one buffer for a tree of builders; PropsCbMem.v proves that this is right. Here a program may use
    any builder that exists, also a child whose continuation has returned; it may recover from panics, and panic with nil
    or with a BuildError that holds nil. *)
From Coq Require Import ZArith List Lia Bool String.
From Verif Require Import GoBase CbString CbBuilder.
Import ListNotations.
Open Scope Z_scope.

(** A []byte: cells [s_off], ..., [s_off + s_cap - 1] of an array, of which the first [s_len] are shown. *)
Record slice := mkSl { s_arr : nat; s_off : Z; s_len : Z; s_cap : Z }.
Definition setLen (s : slice) (n : Z) : slice := mkSl (s_arr s) (s_off s) n (s_cap s).
(** builder.go:23-32; [o_flag] is the pointer inContinuation. *)
Record obj := mkObj {
  o_err : option string; o_res : slice; o_fixed : bool; o_child : option nat;
  o_off : Z; o_pll : Z; o_asn1 : bool; o_flag : option nat }.
(** Arrays are numbered, as are builders and flags. [log] has what Bytes returned, the last first. *)
Record heap := mkHeap { cells : nat -> Z -> Z; narr : nat; objs : list obj; flags : list bool; log : list (res slice) }.

Definition content (h : heap) (s : slice) : list Z :=
  map (fun i => cells h (s_arr s) (s_off s + Z.of_nat i)) (seq 0 (Z.to_nat (s_len s))).
(** s[o], s[o+1], ... = l *)
Definition store (h : heap) (a : nat) (o : Z) (l : list Z) : heap :=
  mkHeap (fun b i => if Nat.eqb b a && (o <=? i) && (i <? o + zlen l) then nth (Z.to_nat (i - o)) l 0 else cells h b i)
    (narr h) (objs h) (flags h) (log h).
(** A new array: [l] and zeros. *)
Definition alloc (h : heap) (l : list Z) : heap :=
  mkHeap (fun b i => if Nat.eqb b (narr h) then nth (Z.to_nat i) l 0 else cells h b i) (S (narr h)) (objs h) (flags h) (log h).
Definition putObj (h : heap) (b : nat) (x : obj) : heap := mkHeap (cells h) (narr h) (upd (objs h) b x) (flags h) (log h).
Definition newObj (h : heap) (x : obj) : heap := mkHeap (cells h) (narr h) (objs h ++ [x]) (flags h) (log h).
Definition setFlag (h : heap) (f : nat) (v : bool) : heap := mkHeap (cells h) (narr h) (objs h) (upd (flags h) f v) (log h).
Definition newFlag (h : heap) : heap := mkHeap (cells h) (narr h) (objs h) (flags h ++ [false]) (log h).
Definition logged (h : heap) (r : res slice) : heap := mkHeap (cells h) (narr h) (objs h) (flags h) (r :: log h).

Definition setErr (x : obj) (e : option string) : obj := mkObj e (o_res x) (o_fixed x) (o_child x) (o_off x) (o_pll x) (o_asn1 x) (o_flag x).
Definition setRes (x : obj) (s : slice) : obj := mkObj (o_err x) s (o_fixed x) (o_child x) (o_off x) (o_pll x) (o_asn1 x) (o_flag x).
Definition setChild (x : obj) (c : option nat) : obj := mkObj (o_err x) (o_res x) (o_fixed x) c (o_off x) (o_pll x) (o_asn1 x) (o_flag x).
Definition setPending (x : obj) (off pll : Z) : obj := mkObj (o_err x) (o_res x) (o_fixed x) (o_child x) off pll (o_asn1 x) (o_flag x).
Definition setFlagPtr (x : obj) (f : nat) : obj := mkObj (o_err x) (o_res x) (o_fixed x) (o_child x) (o_off x) (o_pll x) (o_asn1 x) (Some f).

(** A panic value: nil, BuildError{nil}, or another. *)
Inductive mpanic := MP (k : panic_kind) | MPBuildNil | MPNil.
Definition mout : Type := (heap * option mpanic)%type.

(** builder.go:37-51 *)
Definition NewM (h : heap) (fx : bool) (buffer : slice) : heap :=
  newObj h (mkObj None buffer fx None 0 0 false None).
(** builder.go:55-60; result[offset:] keeps the capacity. *)
Definition BytesM (x : obj) : res slice :=
  match o_err x with
  | Some e => ERR e
  | None => let s := o_res x in OK (mkSl (s_arr s) (s_off s + o_off x) (s_len s - o_off x) (s_cap s - o_off x))
  end.

Section Grow.
(** How far append grows a slice beyond what is needed is left open. *)
Variable grow : Z -> Z -> Z.

(** append(s, l...) *)
Definition appendM (h : heap) (s : slice) (l : list Z) : heap * slice :=
  let need := s_len s + zlen l in
  if need <=? s_cap s then (store h (s_arr s) (s_off s + s_len s) l, setLen s need)
  else (alloc h (content h s ++ l), mkSl (narr h) 0 need (Z.max need (grow (s_cap s) need))).

(** builder.go:276-291; the test for overflow of int is left out, as in CbBuilder.v. *)
Definition addM (h : heap) (b : nat) (l : list Z) : mout :=
  match nth_error (objs h) b with
  | None => (h, Some (MP PNil))
  | Some x =>
      match o_err x with
      | Some _ => (h, None)
      | None =>
          match o_child x with
          | Some _ => (h, Some (MP (PUser "attempted write while child is pending")))
          | None =>
              if o_fixed x && (s_cap (o_res x) <? s_len (o_res x) + zlen l)
              then (putObj h b (setErr x (Some "cryptobyte: Builder is exceeding its fixed-size buffer"%string)), None)
              else let (h, s) := appendM h (o_res x) l in (putObj h b (setRes x s), None)
          end
      end
  end.

(** builder.go:206-273: [b.child] was [c] and is nil now. *)
Definition flushInto (h : heap) (b c : nat) : mout :=
  match nth_error (objs h) b, nth_error (objs h) c with
  | Some x, Some y =>
      match o_err y with
      | Some e => (putObj h b (setErr x (Some e)), None)
      | None =>
          let length := s_len (o_res y) - o_pll y - o_off y in
          if length <? 0 then (h, Some (MP (PUser "cryptobyte: internal error"))) else
          let hdr : option (heap * Z) + (heap * mpanic) :=
            if o_asn1 y then
              if negb (o_pll y =? 1) then inr (h, MP (PUser "cryptobyte: internal error"))
              else match asn1LenBytes length with
                   | None => inl None
                   | Some (lenLen, lenByte, length) =>
                       if s_len (o_res y) <=? o_off y then inr (h, MP PIndex) else
                       let h := store h (s_arr (o_res y)) (s_off (o_res y) + o_off y) [lenByte] in
                       let extra := lenLen - 1 in
                       if negb (extra =? 0) then
                         let (h, p) := addM h c (repeat 0 (Z.to_nat extra)) in
                         match p, nth_error (objs h) c with
                         | Some p, _ => inr (h, p)
                         | None, None => inr (h, MP PNil)
                         | None, Some y =>
                             let s := o_res y in
                             let childStart := o_off y + o_pll y in
                             if s_len s <? childStart + extra then inr (h, MP PSlice) else
                             let n := s_len s - (childStart + extra) in
                             let h := store h (s_arr s) (s_off s + childStart + extra)
                                        (content h (mkSl (s_arr s) (s_off s + childStart) n n)) in
                             inl (Some (putObj h c (setPending y (o_off y + 1) extra), length))
                         end
                       else inl (Some (putObj h c (setPending y (o_off y + 1) extra), length))
                   end
            else inl (Some (h, length)) in
          match hdr with
          | inr (h, p) => (h, Some p)
          | inl None => (putObj h b (setErr x (Some "pending ASN.1 child too long"%string)), None)
          | inl (Some (h, length)) =>
              match nth_error (objs h) c with
              | None => (h, Some (MP PNil))
              | Some y =>
                  let s := o_res y in
                  if (0 <? o_pll y) && (s_len s <? o_off y + o_pll y) then (h, Some (MP PIndex)) else
                  let h := store h (s_arr s) (s_off s + o_off y) (be_enc (Z.to_nat (o_pll y)) length) in
                  if negb (Z.shiftr length (8 * o_pll y) =? 0) then
                    (putObj h b (setErr x (Some "cryptobyte: pending child length exceeds length prefix"%string)), None)
                  else if o_fixed x then (h, None) else (putObj h b (setRes x s), None)
              end
          end
      end
  | _, _ => (h, Some (MP PNil))
  end.

(** builder.go:200-274; a child is newer than its parent, so the number of builders bounds the depth. *)
Fixpoint flushM (fuel : nat) (h : heap) (b : nat) : mout :=
  match nth_error (objs h) b with
  | None => (h, Some (MP PNil))
  | Some x =>
      match o_child x with
      | None => (h, None)
      | Some c =>
          match fuel with
          | O => (h, Some (MP (PUser "model: flush bound exceeded")))
          | S fuel =>
              match flushM fuel h c with
              | (h, None) =>
                  match nth_error (objs h) b with
                  | None => (h, Some (MP PNil))
                  | Some x =>
                      match o_child x with
                      | None => (h, Some (MP PNil))
                      | Some c => flushInto (putObj h b (setChild x None)) b c
                      end
                  end
              | r => r
              end
          end
      end
  end.

(** A program names a builder by its nesting, as in CbBuilder.v, or by its number. *)
Inductive ref := Lvl (k : nat) | Obj (n : nat).
Definition resolve (env : list nat) (h : heap) (r : ref) : nat :=
  match r with Lvl k => nth k env (List.length (objs h)) | Obj n => n end.
Inductive mop :=
  | MAdd (r : ref) (l : list Z)                         (* AddUint8 and so on *)
  | MAddBytes (r : ref) (s : slice)                     (* AddBytes *)
  | MSetErr (r : ref) (e : string)                      (* AddValue, with an error *)
  | MLP (r : ref) (lenLen : Z) (body : list mop)        (* AddUintNLengthPrefixed *)
  | MASN1 (r : ref) (tag : Z) (body : list mop)         (* AddASN1 *)
  | MBytes (r : ref)                                    (* Bytes *)
  | MPanic (p : mpanic)
  | MRecover (body : list mop).                         (* func() { defer func() { recover() }(); body }() *)

(** builder.go:171-192: [b.child] is the last builder then. *)
Definition enterM (h : heap) (b : nat) (lenLen : Z) (isASN1 : bool) : mout :=
  match nth_error (objs h) b with
  | None => (h, Some (MP PNil))
  | Some x =>
      let offset := s_len (o_res x) in
      match addM h b (repeat 0 (Z.to_nat lenLen)) with
      | (h, None) =>
          match nth_error (objs h) b with
          | None => (h, Some (MP PNil))
          | Some x =>
              let (h, x) := match o_flag x with
                            | Some _ => (h, x)
                            | None => (newFlag h, setFlagPtr x (List.length (flags h)))
                            end in
              let c := List.length (objs h) in
              let h := putObj h b (setChild x (Some c)) in
              (newObj h (mkObj None (o_res x) (o_fixed x) None offset lenLen isASN1 (o_flag x)), None)
          end
      | r => r
      end
  end.
(** builder.go:148-169, before and after f(arg): [out] tells whether this call is the outermost. *)
Definition beginM (h : heap) (b : nat) : heap * bool :=
  match nth_error (objs h) b with
  | Some x => match o_flag x with
              | Some f => match nth_error (flags h) f with
                          | Some false => (setFlag h f true, true)
                          | _ => (h, false)
                          end
              | None => (h, false)
              end
  | None => (h, false)
  end.
Definition endM (b : nat) (out : bool) (r : mout) : mout :=
  if out then
    let (h, p) := r in
    match nth_error (objs h) b with
    | None => (h, Some (MP PNil))
    | Some x =>
        let h := match o_flag x with Some f => setFlag h f false | None => h end in
        match p with
        | None | Some MPNil => (h, None)
        | Some (MP (PBuildError e)) => (putObj h b (setErr x (Some e)), None)
        | Some MPBuildNil => (putObj h b (setErr x None), None)
        | Some p => (h, Some p)
        end
    end
  else r.
(** builder.go:193-197 *)
Definition closeM (b : nat) (r : mout) : mout :=
  match r with
  | (h, None) =>
      match flushM (List.length (objs h)) h b with
      | (h, None) => match nth_error (objs h) b with
                     | Some x => match o_child x with
                                 | None => (h, None)
                                 | Some _ => (h, Some (MP (PUser "cryptobyte: internal error")))
                                 end
                     | None => (h, Some (MP PNil))
                     end
      | r => r
      end
  | r => r
  end.

Fixpoint execM (o : mop) (env : list nat) (h : heap) {struct o} : mout :=
  let fix execsM (l : list mop) (env : list nat) (h : heap) {struct l} : mout :=
    match l with
    | [] => (h, None)
    | o :: l => match execM o env h with (h, None) => execsM l env h | r => r end
    end in
  let addLengthPrefixed (b : nat) (lenLen : Z) (isASN1 : bool) (body : list mop) (h : heap) :=
    match nth_error (objs h) b with
    | None => (h, Some (MP PNil))
    | Some x =>
        match o_err x with
        | Some _ => (h, None)
        | None =>
            match enterM h b lenLen isASN1 with
            | (h, None) =>
                let c := (List.length (objs h) - 1)%nat in
                let (h, out) := beginM h b in
                closeM b (endM b out (execsM body (c :: env) h))
            | r => r
            end
        end
    end in
  match o with
  | MAdd r l => addM h (resolve env h r) l
  | MAddBytes r s => addM h (resolve env h r) (content h s)
  | MSetErr r e =>
      match nth_error (objs h) (resolve env h r) with
      | None => (h, Some (MP PNil))
      | Some x => (putObj h (resolve env h r) (setErr x (Some e)), None)
      end
  | MLP r lenLen body => addLengthPrefixed (resolve env h r) lenLen false body h
  | MASN1 r tag body =>
      (* asn1.go:211-223 *)
      let b := resolve env h r in
      match nth_error (objs h) b with
      | None => (h, Some (MP PNil))
      | Some x =>
          match o_err x with
          | Some _ => (h, None)
          | None =>
              if Z.land tag 0x1f =? 0x1f then
                (putObj h b (setErr x (Some "cryptobyte: high-tag number identifier octects not supported"%string)), None)
              else match addM h b [tag] with
                   | (h, None) => addLengthPrefixed b 1 true body h
                   | p => p
                   end
          end
      end
  | MBytes r =>
      match nth_error (objs h) (resolve env h r) with
      | None => (h, Some (MP PNil))
      | Some x => (logged h (BytesM x), None)
      end
  | MPanic p => (h, Some p)
  | MRecover body => (fst (execsM body env h), None)
  end.
Fixpoint execsM (l : list mop) (env : list nat) (h : heap) : mout :=
  match l with
  | [] => (h, None)
  | o :: l => match execM o env h with (h, None) => execsM l env h | r => r end
  end.
End Grow.
