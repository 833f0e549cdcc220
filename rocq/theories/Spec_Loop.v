(** The loops of [std] around [read], on any transport: what [read_exact] and [read_to_end] come to, read off the bytes between
    the failures of the transport ([hauls], Spec_Broken). *)
From Verif Require Export Spec_Broken Spec_Std.
Local Open Scope list_scope.
Local Open Scope Z_scope.

(** room for [n] more bytes after those in [done]: [read] is called again as long as it brings something, also after it came short *)
Inductive fulfils (key iv : bytes) : nat -> bytes -> bytes -> Z -> bytes -> list bytes -> res exact -> bytes -> Z -> bytes -> list bytes -> Prop :=
| Fu_full done buf k pend bs : fulfils key iv 0 done buf k pend bs (Ok (Filled done)) buf k pend bs
| Fu_none n done buf k pend bs buf' k' pend' bs' : (0 < n)%nat -> hauls key iv n buf k pend bs (Ok []) buf' k' pend' bs' ->
    fulfils key iv n done buf k pend bs (Ok (UnexpectedEof done)) buf' k' pend' bs'
| Fu_more n done buf k pend bs d buf1 k1 pend1 bs1 x buf' k' pend' bs' : d <> [] -> hauls key iv n buf k pend bs (Ok d) buf1 k1 pend1 bs1 ->
    fulfils key iv (n - length d) (done ++ d) buf1 k1 pend1 bs1 x buf' k' pend' bs' -> fulfils key iv n done buf k pend bs x buf' k' pend' bs'
| Fu_panic n done buf k pend bs buf' k' pend' bs' : (0 < n)%nat -> hauls key iv n buf k pend bs Panic buf' k' pend' bs' ->
    fulfils key iv n done buf k pend bs Panic buf' k' pend' bs'.

(** the [i]th call has room for [S (sz i)] bytes *)
Inductive exhausts (key iv : bytes) (sz : nat -> nat) : nat -> bytes -> bytes -> Z -> bytes -> list bytes -> res bytes -> bytes -> Z -> bytes -> list bytes -> Prop :=
| Ex_stop i done buf k pend bs buf' k' pend' bs' : hauls key iv (S (sz i)) buf k pend bs (Ok []) buf' k' pend' bs' ->
    exhausts key iv sz i done buf k pend bs (Ok done) buf' k' pend' bs'
| Ex_more i done buf k pend bs d buf1 k1 pend1 bs1 x buf' k' pend' bs' : d <> [] -> hauls key iv (S (sz i)) buf k pend bs (Ok d) buf1 k1 pend1 bs1 ->
    exhausts key iv sz (S i) (done ++ d) buf1 k1 pend1 bs1 x buf' k' pend' bs' -> exhausts key iv sz i done buf k pend bs x buf' k' pend' bs'
| Ex_panic i done buf k pend bs buf' k' pend' bs' : hauls key iv (S (sz i)) buf k pend bs Panic buf' k' pend' bs' ->
    exhausts key iv sz i done buf k pend bs Panic buf' k' pend' bs'.

(** two records of data with a failure of the transport between them *)
Definition two_records (key iv : bytes) (k : Z) (d1 d2 : bytes) : list bytes := [sealed_record key iv k ApplicationDataTy d1; sealed_record key iv (k + 1) ApplicationDataTy d2].
