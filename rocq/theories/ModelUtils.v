(** * ModelUtils: src/utils.rs (src/fields/utils.rs is in ModelHex and ModelRandom) *)
From Verif Require Import Base Field.

Section Utils.
  Context {F : Type} {Fo : FOps F}.

  (** src/utils.rs:20-55, the first loop nest: body for one [row].
      [debug] is not involved here. *)
  (* lines 25-41: the column loop for fixed row, j, el *)
  Definition mi_down_col (row j : nat) (el : F) (col : nat)
             (st : list (list F) * list (list F)) : res (list (list F) * list (list F)) :=
    let '(m, inv) := st in
    m' <- (if col <? j then upd2 m row col f0                       (* 27-28 *)
           else tmp <- idx2 m j col ;;                              (* 30 *)
                x <- idx2 m row col ;;
                upd2 m row col (fsub x (fmul tmp el))) ;;           (* 31-32 *)
    inv' <- (if row <? col then upd2 inv row col f0                 (* 34-35 *)
             else tmp <- idx2 inv j col ;;                          (* 37 *)
                  x <- idx2 inv row col ;;
                  upd2 inv row col (fsub x (fmul tmp el))) ;;       (* 38-39 *)
    Ok (m', inv').

  (* lines 22-42 *)
  Definition mi_down_j (n row j : nat) (st : list (list F) * list (list F)) :=
    el <- idx2 (fst st) row j ;;                                    (* 24 *)
    for_range 0 n (mi_down_col row j el) st.

  (* lines 45-54 *)
  Definition mi_scale_col (row : nat) (el_inv : F) (col : nat)
             (st : list (list F) * list (list F)) : res (list (list F) * list (list F)) :=
    let '(m, inv) := st in
    match Nat.compare col row with
    | Lt => x <- idx2 inv row col ;; inv' <- upd2 inv row col (fmul x el_inv) ;; Ok (m, inv')
    | Eq => m' <- upd2 m row col f1 ;;
            x <- idx2 inv row col ;; inv' <- upd2 inv row col (fmul x el_inv) ;; Ok (m', inv')
    | Gt => x <- idx2 m row col ;; m' <- upd2 m row col (fmul x el_inv) ;; Ok (m', inv)
    end.

  (* lines 21-55 *)
  Definition mi_down_row (n row : nat) (st : list (list F) * list (list F)) :=
    st <- for_range 0 row (mi_down_j n row) st ;;
    d <- idx2 (fst st) row row ;;
    el_inv <- unwrap (finverse d) ;;                                (* 44 *)
    for_range 0 n (mi_scale_col row el_inv) st.

  (* lines 62-74 *)
  Definition mi_up_col (dbg : bool) (row j : nat) (el : F) (col : nat)
             (st : list (list F) * list (list F)) : res (list (list F) * list (list F)) :=
    let '(m, inv) := st in
    m' <- (if dbg && (j <=? col) then upd2 m row col f0 else Ok m) ;;   (* 65-70 *)
    tmp <- idx2 inv j col ;;
    x <- idx2 inv row col ;;
    inv' <- upd2 inv row col (fsub x (fmul tmp el)) ;;
    Ok (m', inv').

  (* lines 59-75 *)
  Definition mi_up_j (dbg : bool) (n row j : nat) (st : list (list F) * list (list F)) :=
    el <- idx2 (fst st) row j ;;
    for_range 0 n (mi_up_col dbg row j el) st.

  (* lines 58-76 *)
  Definition mi_up_row (dbg : bool) (n row : nat) (st : list (list F) * list (list F)) :=
    for_range_rev (row + 1) n (mi_up_j dbg n row) st.

  (* lines 78-89: the final check of debug builds *)
  Definition mi_debug_check (dbg : bool) (m : list (list F)) : res unit :=
    if dbg then
      for_list (combine (seq 0 (length m)) m)
        (fun '(row, mrow) _ =>
           for_list (combine (seq 0 (length mrow)) mrow)
             (fun '(col, v) _ =>
                if row =? col then debug_assert dbg (feqb v f1)
                else debug_assert dbg (feqb v f0)) tt) tt
    else Ok tt.

  (* lines 15-18 *)
  Definition mi_identity (n : nat) : res (list (list F)) :=
    for_range 0 n (fun i inv => upd2 inv i i f1) (repeat (repeat f0 n) n).

  (** src/utils.rs:10-92 mat_inverse *)
  Definition mat_inverse (dbg : bool) (mat : list (list F)) : res (list (list F)) :=
    let n := length mat in
    r0 <- idx mat 0 ;;
    assert (length r0 =? n) ;;
    inv <- mi_identity n ;;
    st <- for_range 0 n (mi_down_row n) (mat, inv) ;;
    st <- for_range_rev 0 n (mi_up_row dbg n) st ;;
    mi_debug_check dbg (fst st) ;;
    Ok (snd st).

  (** src/utils.rs:94-105 mat_transpose *)
  Definition mat_transpose (mat : list (list F)) : res (list (list F)) :=
    let rows := length mat in
    r0 <- idx mat 0 ;;
    let cols := length r0 in
    for_list (combine (seq 0 rows) mat)
      (fun '(row, matrow) tr =>
         for_range 0 cols (fun col tr => x <- idx matrow col ;; upd2 tr col row x) tr)
      (repeat (repeat f0 rows) cols).
End Utils.
