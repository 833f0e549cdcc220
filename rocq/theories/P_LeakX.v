(** Proofs about the programs of [M_Leak2.v] for the key exchange and the key expansion. *)
From Verif Require Import P_Util P_Word Spec_Crypto P_Sha2 P_Prf P_Aead M_P256 M_Leak2 P_Leak P_LeakP P_LeakT P_Leak2 P_LeakA P_LeakB P_LeakS M_Leak.
From Coq Require Import ZifyBool ZifyNat ZifyN.
Local Open Scope Z_scope.

(** ** Key expansion: results *)
Definition tpf (p : prf) : tprf Z := TPrf (words (p_secret p)) (words (p_seed p)) (words (p_a p)) (words (p_buf p)).
Definition out_prf (s : bytes * prf) : list Z * tprf Z := (words (fst s), tpf (snd s)).
#[local] Opaque t_hmac hmac_sha256.
Lemma g_next_block m p : doesg out_prf (t_next_block m (tpf p)) (next_block m p) yes.
Proof.
  unfold t_next_block, next_block. cbn [tpf tsecret tseed tpa tbuf]. rewrite <- map_app.
  eapply g_bind; [apply g_hmac|]. intros n _ _. eapply g_bind; [apply g_hmac|]. intros a _ _.
  exact (g_ret out_prf (n, Prf (p_secret p) (p_seed p) a (p_buf p)) yes I).
Qed.
#[local] Opaque t_next_block next_block.
Lemma run_get_loop m size : forall f ret p, get_loop m f size ret p <> Diverge ->
  run (t_get_loop (t_next_block m) f size (words ret) (tpf p)) = (let* s := get_loop m f size ret p in Ok (out_prf s)).
Proof.
  induction f as [|f IH]; intros ret p H; cbn [t_get_loop get_loop] in *; rewrite map_length; destruct (length ret <? size)%nat; try reflexivity.
  - contradiction.
  - rewrite run_bind. destruct (g_next_block m p) as [E _]. rewrite E. destruct (next_block m p) as [[nb q]|e| |]; cbn [rbind] in *; try reflexivity.
    cbn [out_prf fst snd]. cbv zeta in *. destruct (32 <? size - length ret)%nat.
    + rewrite <- map_app. apply IH. exact H.
    + cbn [run rbind]. unfold out_prf, tpf. cbn [fst snd p_secret p_seed p_a p_buf tsecret tseed tpa].
      rewrite firstn_map, skipn_map, map_app. reflexivity.
Qed.
Lemma run_get_bytes m size p : get_bytes m size p <> Diverge -> run (t_get_bytes m size (tpf p)) = (let* s := get_bytes m size p in Ok (out_prf s)).
Proof.
  unfold t_get_bytes, get_bytes. cbv zeta. cbn [tpf tbuf tsecret tseed tpa]. rewrite map_length.
  destruct (0 <? length (p_buf p))%nat; [destruct (length (p_buf p) <=? size)%nat|]; intros H.
  - exact (run_get_loop m size size (p_buf p) (Prf (p_secret p) (p_seed p) (p_a p) []) H).
  - cbn [run rbind]. unfold out_prf, tpf. cbn [fst snd p_secret p_seed p_a p_buf]. rewrite firstn_map, skipn_map. reflexivity.
  - exact (run_get_loop m size size [] p H).
Qed.
Definition outs_prf (s : list bytes * prf) : list (list Z) * tprf Z := (map words (fst s), tpf (snd s)).
#[local] Opaque t_get_bytes get_bytes.
Lemma run_requests m : forall sizes p s, requests m sizes p = Ok s -> run (t_requests (t_get_bytes m) sizes (tpf p)) = Ok (outs_prf s).
Proof.
  induction sizes as [|k ks IH]; intros p s H; cbn [requests t_requests] in *.
  - injection H as <-. reflexivity.
  - rewrite run_bind, run_get_bytes by (intros E; rewrite E in H; discriminate).
    destruct (get_bytes m k p) as [[o q]|e| |]; try discriminate. cbn [rbind out_prf fst snd] in *.
    destruct (requests m ks q) as [[os q']|e| |] eqn:E; try discriminate. cbn [rbind] in *. injection H as <-.
    rewrite run_bind, (IH q _ E). reflexivity.
Qed.
Lemma run_prf m secret seed sizes p s : prf_new m secret seed = Ok p -> requests m sizes p = Ok s ->
  run (t_prf m (words secret) (words seed) sizes) = Ok (outs_prf s).
Proof.
  intros N R. unfold t_prf, t_prf_new. unfold prf_new in N. destruct (g_hmac m secret seed) as [E _].
  rewrite !run_bind, E. destruct (hmac_sha256 m secret seed) as [a| | |]; try discriminate. cbn [rbind run] in *. injection N as <-.
  exact (run_requests m sizes _ s R).
Qed.

(** ** Key expansion: traces *)
Definition prf_rel (p p' : tprf Z) : Prop := eqlen (tsecret p) (tsecret p') /\ eqlen (tseed p) (tseed p') /\ eqlen (tpa p) (tpa p') /\ eqlen (tbuf p) (tbuf p').
Definition out_rel (s s' : list Z * tprf Z) : Prop := eqlen (fst s) (fst s') /\ prf_rel (snd s) (snd s').
Lemma both_eqlen n a b : both n a b -> eqlen a b.
Proof. intros [A B]. red. congruence. Qed.
Lemma near_next_block m p p' : prf_rel p p' -> near out_rel (t_next_block m p) (t_next_block m p').
Proof.
  intros (A & B & C & D). unfold eqlen in *. Transparent t_next_block. unfold t_next_block.
  eapply near_bind; [apply near_hmac; red; rewrite ?app_length; congruence|]. intros u u' U.
  eapply near_bind; [apply near_hmac; red; congruence|]. intros v v' V. constructor.
  split; [exact (both_eqlen _ _ _ U)|]. split; [exact A|]. split; [exact B|]. split; [exact (both_eqlen _ _ _ V)|exact D].
Qed.
#[local] Opaque t_next_block.
Lemma near_get_loop m size : forall f r r' p p', eqlen r r' -> prf_rel p p' ->
  near out_rel (t_get_loop (t_next_block m) f size r p) (t_get_loop (t_next_block m) f size r' p').
Proof.
  induction f as [|f IH]; intros r r' p p' R P; cbn [t_get_loop]; red in R; rewrite <- R; destruct (length r <? size)%nat; try (constructor; split; assumption).
  - eapply near_bind; [apply near_next_block; exact P|]. intros [n q] [n' q'] [N Q]. cbn [fst snd] in *. cbv zeta. red in N.
    destruct (32 <? size - length r)%nat.
    + apply IH; [red; rewrite !app_length; congruence|exact Q].
    + destruct Q as (A & B & C & D). apply Near_copy, Near_copy. constructor. split; [red; cbn [fst]; rewrite !app_length, !firstn_length; congruence|].
      split; [exact A|]. split; [exact B|]. split; [exact C|]. red. cbn [snd tbuf]. rewrite !skipn_length. congruence.
Qed.
Lemma near_get_bytes m size p p' : prf_rel p p' -> near out_rel (t_get_bytes m size p) (t_get_bytes m size p').
Proof.
  Transparent t_get_bytes. intros P. assert (P' := P). destruct P' as (A & B & C & D). unfold t_get_bytes. cbv zeta. red in D. rewrite <- D.
  destruct (0 <? length (tbuf p))%nat; [destruct (length (tbuf p) <=? size)%nat|].
  - apply near_get_loop; [exact D|]. split; [exact A|]. split; [exact B|]. split; [exact C|reflexivity].
  - apply Near_copy. constructor. split; [red; cbn [fst]; rewrite !firstn_length; congruence|].
    split; [exact A|]. split; [exact B|]. split; [exact C|]. red. cbn [snd tbuf]. rewrite !skipn_length. congruence.
  - apply near_get_loop; [reflexivity|exact P].
Qed.
#[local] Opaque t_get_bytes.
Lemma near_prf m secret secret' seed seed' sizes : eqlen secret secret' -> eqlen seed seed' ->
  near any (t_prf m secret seed sizes) (t_prf m secret' seed' sizes).
Proof.
  intros S D. unfold t_prf, t_prf_new. eapply near_bind with (R := prf_rel).
  - eapply near_bind; [apply near_hmac; assumption|]. intros a a' A. constructor. split; [exact S|]. split; [exact D|]. split; [exact (both_eqlen _ _ _ A)|reflexivity].
  - intros p p' P. eapply near_weaken with (R := fun s s' => prf_rel (snd s) (snd s')); [|intros; exact I].
    revert p p' P. induction sizes as [|k ks IH]; intros p p' P; cbn [t_requests]; [constructor; exact P|].
    eapply near_bind; [apply near_get_bytes; exact P|]. intros [o q] [o' q'] [_ Q]. cbn [snd] in Q.
    eapply near_bind; [apply IH; exact Q|]. intros [os r] [os' r'] R. constructor. exact R.
Qed.
Lemma prf_traces m secret secret' seed seed' sizes : (length secret <= 64)%nat -> zlen seed + 96 < 2 ^ 61 ->
  length secret = length secret' -> length seed = length seed' ->
  trace (t_prf m (words secret) (words seed) sizes) = trace (t_prf m (words secret') (words seed') sizes).
Proof.
  intros L H S D. assert (H' : zlen seed' + 96 < 2 ^ 61) by (unfold zlen in *; lia).
  destruct (prf_requests m secret seed sizes (total_req sizes) L H ltac:(lia)) as (p & o & q & A & B & _).
  destruct (prf_requests m secret' seed' sizes (total_req sizes) ltac:(lia) H' ltac:(lia)) as (p' & o' & q' & A' & B' & _).
  refine (proj1 (near_trace any _ _ (near_prf m _ _ _ _ sizes _ _) _ _ (run_prf _ _ _ _ _ _ A B) (run_prf _ _ _ _ _ _ A' B')));
    red; rewrite !map_length; assumption.
Qed.

(** ** Records: sealing and opening *)
Lemma seal_traces m key key' nonce nonce' data data' ad ad' :
  length key = 32%nat -> length key' = 32%nat -> length nonce = 12%nat -> length nonce' = 12%nat -> fits data ->
  length data = length data' -> length ad = length ad' ->
  trace (t_seal m (words key) (words nonce) (words data) (words ad)) = trace (t_seal m (words key') (words nonce') (words data') (words ad')).
Proof.
  intros K K' N N' F D A. assert (F' : fits data') by (unfold fits in *; congruence).
  destruct (g_seal m key nonce data ad) as [E _]. destruct (g_seal m key' nonce' data' ad') as [E' _].
  rewrite aead_encrypt_spec in E, E' by assumption.
  refine (proj1 (near_trace eqlen _ _ (near_seal m _ _ _ _ _ _ _ _ _ _ _ _) _ _ E E')); unfold both, eqlen; rewrite !map_length; auto.
Qed.
(** was the record accepted? *)
Definition accepted (r : res bytes) : bool := match r with Ok _ => true | _ => false end.
Lemma open_trace m key nonce data ad : length key = 32%nat -> length nonce = 12%nat -> fits data -> (16 <= length data)%nat ->
  exists s, run (t_open_body m (words key) (words nonce) (words data) (words ad)) = Ok s /\
    trace (t_open m (words key) (words nonce) (words data) (words ad)) =
    trace (t_open_body m (words key) (words nonce) (words data) (words ad)) ++ [EJump (accepted (aead_decrypt m key nonce data ad))].
Proof.
  intros K N F L. destruct (g_body m key nonce data ad L) as [E _].
  assert (O := open_outcomes m key nonce ad data K N F). rewrite open_body in *. unfold t_open. rewrite map_length.
  change MAC_LEN with 16%nat in *. destruct (Nat.ltb_spec (length data) 16) as [|_]; [lia|].
  rewrite trace_bind, E. destruct (body m key nonce data ad) as [[pl d]|e| |]; cbn [rbind] in *.
  - exists (plain_diff (pl, d)). split; [reflexivity|]. cbn [plain_diff fst snd]. cbn [jump pbind trace]. destruct (d =? 0); reflexivity.
  - destruct (run_no_err _ _ E).
  - destruct O as [[? O]|O]; discriminate.
  - destruct O as [[? O]|O]; discriminate.
Qed.
Lemma open_traces m key key' nonce nonce' data data' ad ad' :
  length key = 32%nat -> length key' = 32%nat -> length nonce = 12%nat -> length nonce' = 12%nat -> fits data ->
  length data = length data' -> length ad = length ad' -> (16 <= length data)%nat ->
  exists t, trace (t_open m (words key) (words nonce) (words data) (words ad)) = t ++ [EJump (accepted (aead_decrypt m key nonce data ad))] /\
    trace (t_open m (words key') (words nonce') (words data') (words ad')) = t ++ [EJump (accepted (aead_decrypt m key' nonce' data' ad'))].
Proof.
  intros K K' N N' F D A L. assert (F' : fits data') by (unfold fits in *; congruence).
  destruct (open_trace m key nonce data ad K N F L) as (s & E & T). destruct (open_trace m key' nonce' data' ad' K' N' F' ltac:(lia)) as (s' & E' & T').
  exists (trace (t_open_body m (words key) (words nonce) (words data) (words ad))). split; [exact T|]. rewrite T'. f_equal. symmetry.
  refine (proj1 (near_trace any _ _ (near_open_body m _ _ _ _ _ _ _ _ _ _ _ _ _) _ _ E E')); unfold both, eqlen; rewrite !map_length; auto.
Qed.
Lemma open_short m key nonce data ad : (length data < 16)%nat -> trace (t_open m (words key) (words nonce) (words data) (words ad)) = [].
Proof. intros L. unfold t_open. rewrite map_length. change MAC_LEN with 16%nat. destruct (Nat.ltb_spec (length data) 16); [reflexivity|lia]. Qed.

(** ** The private scalar *)
Lemma does_one : does (consts ONE) (Ok ONE) (fun v => v = ONE).
Proof. apply does_consts. Qed.
#[local] Opaque t_mult_scalar mult_scalar t_normalize normalize t_to_bytes to_bytes.
Lemma run_exchange m gx gy qx qy n : len8 gx -> len8 gy -> len8 qx -> len8 qy -> len8 n ->
  run (t_exchange m gx gy qx qy n) =
  (let* p := mult_scalar m (Point gx gy ONE) n in let* a := normalize m p in
   let* q := mult_scalar m (Point qx qy ONE) n in let* s := normalize m q in
   Ok (words (to_bytes (nx a)), words (to_bytes (ny a)), words (to_bytes (nx s)))).
Proof.
  intros GX GY QX QY N. unfold t_exchange.
  assert (S : forall x y, len8 x -> len8 y -> points8 (Point x y ONE)) by (intros; repeat split; assumption).
  rewrite run_bind. rewrite (proj1 does_one). cbn [rbind]. change (TPoint gx gy ONE) with (tp (Point gx gy ONE)). rewrite run_bind, (scalar_same_result m (Point gx gy ONE) n (S _ _ GX GY) N).
  destruct (doesp_mult_scalar m (Point gx gy ONE) n (S _ _ GX GY) N) as [_ P].
  destruct (mult_scalar m (Point gx gy ONE) n) as [p| | |]; cbn [rbind]; try reflexivity. specialize (P p eq_refl).
  destruct (does_normalize m p P) as [E HP]. rewrite run_bind, E.
  destruct (normalize m p) as [a| | |]; cbn [rbind] in *; try reflexivity. destruct (HP _ eq_refl) as [A B]. cbn [fst snd] in A, B.
  rewrite run_bind, (proj1 (does_to_bytes _ A)). cbn [rbind]. rewrite run_bind, (proj1 (does_to_bytes _ B)). cbn [rbind].
  rewrite run_bind, (proj1 does_one). cbn [rbind]. change (TPoint qx qy ONE) with (tp (Point qx qy ONE)). rewrite run_bind, (scalar_same_result m (Point qx qy ONE) n (S _ _ QX QY) N).
  destruct (doesp_mult_scalar m (Point qx qy ONE) n (S _ _ QX QY) N) as [_ Q].
  destruct (mult_scalar m (Point qx qy ONE) n) as [q| | |]; cbn [rbind]; try reflexivity. specialize (Q q eq_refl).
  destruct (does_normalize m q Q) as [F HQ]. rewrite run_bind, F.
  destruct (normalize m q) as [s| | |]; cbn [rbind] in *; try reflexivity. destruct (HQ _ eq_refl) as [C _]. cbn [fst snd] in C.
  rewrite run_bind, (proj1 (does_to_bytes _ C)). reflexivity.
Qed.
Lemma exchange_traces gx gy qx qy n gx' gy' qx' qy' n' : len8 gx -> len8 gy -> len8 qx -> len8 qy -> len8 n ->
  len8 gx' -> len8 gy' -> len8 qx' -> len8 qy' -> len8 n' ->
  trace (t_exchange Release gx gy qx qy n) = trace (t_exchange Release gx' gy' qx' qy' n').
Proof.
  intros GX GY QX QY N GX' GY' QX' QY' N'. apply (same_trace any). unfold t_exchange.
  assert (B : forall a b, len8 a -> len8 b -> both 8 a b) by (intros a b X Y; split; assumption).
  eapply same_bind; [apply (same_consts ONE)|intros o o' O].
  eapply same_bind; [apply same_mult_scalar; [repeat split; cbn; auto; apply O|auto]|intros p p' P].
  eapply same_bind; [apply same_normalize; exact P|intros [x y] [x' y'] [X Y]]. cbn [fst snd] in *.
  eapply same_bind; [apply same_to_bytes; exact X|intros xb xb' XB]. eapply same_bind; [apply same_to_bytes; exact Y|intros yb yb' YB].
  eapply same_bind; [apply (same_consts ONE)|intros o1 o1' O1].
  eapply same_bind; [apply same_mult_scalar; [repeat split; cbn; auto; apply O1|auto]|intros q q' Q].
  eapply same_bind; [apply same_normalize; exact Q|intros [s y1] [s' y1'] [S Y1]]. cbn [fst snd] in *.
  eapply same_bind; [apply same_to_bytes; exact S|intros sb sb' SB]. constructor. exact I.
Qed.
Lemma prf_same_result m secret seed sizes p outs p' : prf_new m secret seed = Ok p -> requests m sizes p = Ok (outs, p') ->
  exists q, run (t_prf m (words secret) (words seed) sizes) = Ok (map words outs, q).
Proof. intros A B. exists (tpf p'). exact (run_prf m secret seed sizes p (outs, p') A B). Qed.
Lemma seal_same_result m key nonce data ad : run (t_seal m (words key) (words nonce) (words data) (words ad)) = (let* r := aead_encrypt m key nonce data ad in Ok (words r)).
Proof. apply g_seal. Qed.
Lemma hmac_same_result m key msg : run (t_hmac m (words key) (words msg)) = (let* r := hmac_sha256 m key msg in Ok (words r)).
Proof. apply g_hmac. Qed.
Lemma hmac_traces m key key' msg msg' : (length key <= 64)%nat -> zlen msg + 64 < 2 ^ 61 -> length key = length key' -> length msg = length msg' ->
  trace (t_hmac m (words key) (words msg)) = trace (t_hmac m (words key') (words msg')).
Proof.
  intros K H E D. assert (A := hmac_same_result m key msg). assert (B := hmac_same_result m key' msg').
  rewrite hmac_spec in A by (unfold zlen in *; lia). rewrite hmac_spec in B by (unfold zlen in *; lia).
  refine (proj1 (near_trace _ _ _ (near_hmac m _ _ _ _ _ _) _ _ A B)); red; rewrite !map_length; assumption.
Qed.
