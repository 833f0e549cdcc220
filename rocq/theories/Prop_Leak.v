(** C73 and C74: what the executions give away besides their results.  [M_Leak.v] and [M_Leak2.v] write the code as programs over
    an abstract type of words; [trace] lists the instructions, the indices and the outcomes of the jumps. *)
From Verif Require Import P_Util M_Ecdhe Spec_Ecdhe Spec_P256 P_Prf P_Aead M_Leak2 P_Leak P_LeakP P_LeakT P_Leak2 P_LeakA P_LeakB P_LeakS P_LeakX P_LeakY M_Leak.
Local Open Scope Z_scope.

(** ** C73: the programs compute what the other models compute *)
Theorem C73_compare_result : forall m a b, run (t_crypto_compare m (words a) (words b)) =
  match crypto_compare m a b with Ok true => Ok 1 | Ok false => Ok 0 | Err e => Err e | Panic => Panic | Diverge => Diverge end.
Proof. exact compare_result. Qed.
Print Assumptions C73_compare_result.
Theorem C73_seal_result : forall m key nonce data ad, run (t_seal m (words key) (words nonce) (words data) (words ad)) =
  (let* r := aead_encrypt m key nonce data ad in Ok (words r)).
Proof. exact seal_same_result. Qed.
Print Assumptions C73_seal_result.
Theorem C73_open_result : forall m key nonce data ad, run (t_open m (words key) (words nonce) (words data) (words ad)) =
  match aead_decrypt m key nonce data ad with Ok p => Ok (Some (words p)) | Err _ => Ok None | Panic => Panic | Diverge => Diverge end.
Proof. exact open_same_result. Qed.
Print Assumptions C73_open_result.
Theorem C73_hmac_result : forall m key msg, run (t_hmac m (words key) (words msg)) = (let* r := hmac_sha256 m key msg in Ok (words r)).
Proof. exact hmac_same_result. Qed.
Print Assumptions C73_hmac_result.
Theorem C73_prf_result : forall m secret seed sizes p outs p', prf_new m secret seed = Ok p -> requests m sizes p = Ok (outs, p') ->
  exists q, run (t_prf m (words secret) (words seed) sizes) = Ok (map words outs, q).
Proof. exact prf_same_result. Qed.
Print Assumptions C73_prf_result.

(** ** C73: their traces depend on lengths only *)
(** [crypto_compare], with any contents and in either build *)
Theorem C73_compare_traces : forall m a b a' b', length a = length a' -> length b = length b' ->
  trace (t_crypto_compare m a b) = trace (t_crypto_compare m a' b').
Proof. exact compare_trace. Qed.
Print Assumptions C73_compare_traces.
(** sealing a record *)
Theorem C73_seal_traces : forall m key key' nonce nonce' data data' ad ad',
  length key = 32%nat -> length key' = 32%nat -> length nonce = 12%nat -> length nonce' = 12%nat -> fits data ->
  length data = length data' -> length ad = length ad' ->
  trace (t_seal m (words key) (words nonce) (words data) (words ad)) = trace (t_seal m (words key') (words nonce') (words data') (words ad')).
Proof. exact seal_traces. Qed.
Print Assumptions C73_seal_traces.
(** opening one: the verdict shows, as the last event, and nothing else does; not even how much of the tag was right *)
Theorem C73_open_traces : forall m key key' nonce nonce' data data' ad ad',
  length key = 32%nat -> length key' = 32%nat -> length nonce = 12%nat -> length nonce' = 12%nat -> fits data ->
  length data = length data' -> length ad = length ad' -> (16 <= length data)%nat ->
  exists t, trace (t_open m (words key) (words nonce) (words data) (words ad)) = t ++ [EJump (accepted (aead_decrypt m key nonce data ad))] /\
    trace (t_open m (words key') (words nonce') (words data') (words ad')) = t ++ [EJump (accepted (aead_decrypt m key' nonce' data' ad'))].
Proof. exact open_traces. Qed.
Print Assumptions C73_open_traces.
Theorem C73_open_short : forall m key nonce data ad, (length data < 16)%nat ->
  trace (t_open m (words key) (words nonce) (words data) (words ad)) = [].
Proof. exact open_short. Qed.
Print Assumptions C73_open_short.
(** HMAC and the key expansion *)
Theorem C73_hmac_traces : forall m key key' msg msg', (length key <= 64)%nat -> zlen msg + 64 < 2 ^ 61 ->
  length key = length key' -> length msg = length msg' -> trace (t_hmac m (words key) (words msg)) = trace (t_hmac m (words key') (words msg')).
Proof. exact hmac_traces. Qed.
Print Assumptions C73_hmac_traces.
Theorem C73_prf_traces : forall m secret secret' seed seed' sizes, (length secret <= 64)%nat -> zlen seed + 96 < 2 ^ 61 ->
  length secret = length secret' -> length seed = length seed' ->
  trace (t_prf m (words secret) (words seed) sizes) = trace (t_prf m (words secret') (words seed') sizes).
Proof. exact prf_traces. Qed.
Print Assumptions C73_prf_traces.

(** traces tell programs apart: a comparison that stops at the first difference gives away where it is *)
Fixpoint early_exit (a b : list Z) (i n : nat) : prog Z bool :=
  match n with
  | O => Ret true
  | S n => let! x := load a i in let! y := load b i in let! e := bin Xor x y in let! same := jump 0 e in
           if same then early_exit a b (S i) n else Ret false
  end.
Example ex_early_exit : run (early_exit [1; 2] [1; 3] 0 2) = run (early_exit [1; 2] [3; 2] 0 2) /\
  trace (early_exit [1; 2] [1; 3] 0 2) <> trace (early_exit [1; 2] [3; 2] 0 2).
Proof. split; [reflexivity|discriminate]. Qed.
Example ex_compare_trace : trace (t_crypto_compare Debug [5] [6]) =
  [EConst 0; ELoad 0; ELoad 0; EBin Xor; EBin Or; EUn (Shr 4); EBin Or; EUn (Shr 2); EBin Or; EUn (Shr 1); EBin Or; EConst 1; EBin And; EUn Eqz].
Proof. reflexivity. Qed.
(** an accepted and a refused record of the same length *)
Example ex_open_traces : exists key nonce sealed, length key = 32%nat /\ length nonce = 12%nat /\ fits sealed /\ (16 <= length sealed)%nat /\
  accepted (aead_decrypt Release key nonce sealed []) = true /\ accepted (aead_decrypt Release key nonce (zeros (length sealed)) []) = false.
Proof.
  exists (zeros 32), (zeros 12), (match aead_encrypt Release (zeros 32) (zeros 12) [x68; x69] [] with Ok s => s | _ => [] end).
  vm_compute. repeat split; (reflexivity || lia || discriminate).
Qed.

(** ** C74: the private value of the key exchange *)
Theorem C74_exchange_result : forall m gx gy qx qy n, length gx = 8%nat -> length gy = 8%nat -> length qx = 8%nat -> length qy = 8%nat -> length n = 8%nat ->
  run (t_exchange m gx gy qx qy n) =
  (let* p := mult_scalar m (Point gx gy ONE) n in let* a := normalize m p in
   let* q := mult_scalar m (Point qx qy ONE) n in let* s := normalize m q in
   Ok (words (to_bytes (nx a)), words (to_bytes (ny a)), words (to_bytes (nx s)))).
Proof. exact run_exchange. Qed.
Print Assumptions C74_exchange_result.
(** release builds: the trace is the same for all private values and all points *)
Theorem C74_exchange_traces : forall gx gy qx qy n gx' gy' qx' qy' n',
  length gx = 8%nat -> length gy = 8%nat -> length qx = 8%nat -> length qy = 8%nat -> length n = 8%nat ->
  length gx' = 8%nat -> length gy' = 8%nat -> length qx' = 8%nat -> length qy' = 8%nat -> length n' = 8%nat ->
  trace (t_exchange Release gx gy qx qy n) = trace (t_exchange Release gx' gy' qx' qy' n').
Proof. exact exchange_traces. Qed.
Print Assumptions C74_exchange_traces.
Theorem C74_random_result : forall m g, run (t_draws (t_keep m) (scalars (S (length g)) g)) = fst (get_random_x m g).
Proof. exact random_same_result. Qed.
Print Assumptions C74_random_result.
(** drawing it gives away which candidates were thrown away, and nothing about the one that was kept *)
Theorem C74_random_traces : forall d d', Forall int256_ok d -> Forall int256_ok d' ->
  Forall2 (fun x y => (limbs_val x <? p256) = (limbs_val y <? p256)) d d' ->
  trace (t_draws (t_keep Release) d) = trace (t_draws (t_keep Release) d').
Proof. exact draws_traces. Qed.
Print Assumptions C74_random_traces.
(** debug builds: the assertions jump on secret values *)
Theorem C74_debug_refuted : exists n n', int256_ok n /\ int256_ok n' /\ forall qx qy,
  trace (t_exchange Debug (px G) (py G) qx qy n) <> trace (t_exchange Debug (px G) (py G) qx qy n').
Proof. exact debug_leaks. Qed.
Print Assumptions C74_debug_refuted.

Example ex_random : exists d d', Forall int256_ok d /\ Forall int256_ok d' /\ d <> d' /\
  Forall2 (fun x y => (limbs_val x <? p256) = (limbs_val y <? p256)) d d' /\ run (t_draws (t_keep Release) d) <> run (t_draws (t_keep Release) d').
Proof.
  exists [repeat (2 ^ 32 - 1) 8; repeat 1 8], [P256; repeat 2 8].
  split; [repeat constructor; cbn; lia|]. split; [repeat constructor; cbn; lia|]. split; [discriminate|].
  split; [repeat constructor|]. vm_compute. discriminate.
Qed.
(** branching on a bit of the scalar would show *)
Definition branching (n : list Z) : prog Z unit :=
  let! x := load n 0 in let! one := const 1 in let! bit := bin And x one in let! even := jump 0 bit in
  if even then Ret tt else let! _ := bin (Add 32) x x in Ret tt.
Example ex_branching : trace (branching [2]) <> trace (branching [3]).
Proof. discriminate. Qed.
