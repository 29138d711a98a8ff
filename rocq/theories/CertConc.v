(** CreateCertificateRequest in goroutines that share the memory of the templates' attributes (CertMem.v). A goroutine is the
    part of the call that deals with attributes, gmx509.go:99-165, cut where it reads or writes shared memory. *)
From Coq Require Import ZArith List Lia Bool String.
From Verif Require Import GoBase GoAsn1 GoElliptic Sm2 Sm2Der GoText GoPkix CertText Cert CertMem.
Import ListNotations.
Open Scope Z_scope.

(** Where a call is. Reading the attributes in the first loop and for marshalling are one step each, and so is
    assigning the cells behind a slice; a slice is read and assigned in one piece. *)
Inductive stage : Set :=
  | Scan                                                         (* before the loop at gmx509.go:107 *)
  | Read (a : attr) (atvs : list ATV) (new : islice)             (* gmx509.go:141, before Value[0] is read *)
  | Append (a : attr) (atvs : list ATV) (s : islice)             (* before append *)
  | Store (a : attr) (s : islice)                                (* before the assignment to Value[0] *)
  | New (new : islice)                                           (* gmx509.go:148, a new attribute *)
  | Look (attributes : list attr)                                (* gmx509.go:165, before newRawAttributes *)
  | Made (views : list ATVSet).                                  (* what newRawAttributes gets *)
Record thread : Set := mkTh { h_attrs : list attr; h_exts : list Extension; h_stage : stage }.

(** gmx509.go:137: the attributes that can take extensions. *)
Definition takes (a : attr) : bool := oidEqual (t_type a) oidExtensionRequest && negb (v_len (t_value a) =? 0)%nat.

Section Spare.
Variable spare : nat -> nat.

Definition step (t : thread) (h : heap) : option (thread * heap) :=
  let next st h := Some (mkTh (h_attrs t) (h_exts t) st, h) in
  match h_stage t with
  | Scan =>
      if 0 <? zlen (h_exts t) then
        let atvs := extensionATVs (map (view h) (h_attrs t)) (h_exts t) in
        let new := mkIS (List.length (inner h)) 0 (List.length atvs) (List.length (h_exts t)) in
        let h := mkHeap (inner h ++ [atvs ++ repeat zeroATV (List.length (h_exts t) - List.length atvs)]) (outer h) in
        match find takes (h_attrs t) with Some a => next (Read a atvs new) h | None => next (New new) h end
      else next (Look (h_attrs t)) h
  | Read a atvs new =>
      match readO h (t_value a) with [] => next (New new) h | s :: _ => next (Append a atvs s) h end
  | Append a atvs s => let '(h, s) := appendI spare h s atvs in next (Store a s) h
  | Store a s =>
      next (Look (h_attrs t))
        (mkHeap (inner h) (setNth (v_arr (t_value a)) (writeAt (nth (v_arr (t_value a)) (outer h) []) (v_off (t_value a)) [s]) (outer h)))
  | New new =>
      next (Look (h_attrs t ++ [mkAttr oidExtensionRequest (mkOS (List.length (outer h)) 0 1)])) (mkHeap (inner h) (outer h ++ [[new]]))
  | Look attributes => next (Made (map (view h) attributes)) h
  | Made _ => None
  end.
(** The schedule lists whose turn it is; who is finished or does not exist lets it pass. *)
Fixpoint sched (turns : list nat) (ts : list thread) (h : heap) : list thread * heap :=
  match turns with
  | [] => (ts, h)
  | g :: turns =>
      match nth_error ts g with
      | None => sched turns ts h
      | Some t => match step t h with None => sched turns ts h | Some (t', h') => sched turns (setNth g t' ts) h' end
      end
  end.
End Spare.
