(** * S2k: parse/s2k/s2k.go. *)
From Coq Require Import Strings.String Strings.Byte List NArith ZArith Bool.
From Verif Require Import Base Item Reader Context Env Values Monad.
Import ListNotations.
Local Open Scope N_scope.

(** The fields after the S2K identifier, s2k.go 37-104, filling the S2K item;
    returns HasIV. *)
Definition s2k_fields (id : byte) (f : bool) : M bool :=
  let n := b2n id in
  if (n =? 0) || (n =? 1) || (n =? 3) then
    let* h := rdByte in
    add (hash_item h f) ;;
    (if negb (n =? 0) then (let* salt := rdBytes 8 in add (salt_item salt true)) else ret tt) ;;
    (if n =? 3 then (let* ct := rdByte in add (stretch_item ct)) else ret tt) ;;
    ret true
  else if n =? 101 then
    let* rst := rdRest in
    if (rst <? 4)%Z then ret true else
    let* mrk := rdBytes 3 in
    if beqs mrk (str "GNU") then
      let* k := rdByte in
      let enum := 1000 + b2n k in
      let gnu := it_nv (str "GNU-divert-to-card") (str "Extension Number " ++ dec enum) in
      let* gnu := (if enum =? 1002 then
                     let* l := rdByte in
                     let* ser := rdBytes (Z.of_N (b2n l)) in
                     ret (add_child (it_nd (str "Serial Number") (dump_bytes ser true)) gnu)
                   else ret gnu) in
      add gnu ;; ret false
    else
      let* _ := rdSeek (-3) 1 in ret true
  else ret true.

(** New, S2K.Parse and HasIV, s2k.go 21-111; [f] is dumpFlag. *)
Definition s2k_parse (f : bool) : M bool :=
  let* ss := rdByte in
  child (s2k_item ss f) (s2k_fields ss f).
