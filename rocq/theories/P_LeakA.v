(** Proofs about the programs of [M_Leak2.v] for the AEAD: they compute what the first model computes. *)
From Verif Require Import P_Util P_Word M_Leak2 P_Leak P_LeakP P_Leak2 M_Leak.
From Coq Require Import ZifyBool ZifyNat ZifyN.
Local Open Scope Z_scope.

(** ** ChaCha20 *)
Definition len16 (v : list Z) : Prop := length v = 16%nat.
Lemma read_u32_len l : (length l mod 4 = 0)%nat -> length (read_u32_le l) = (length l / 4)%nat.
Proof. intros H. unfold read_u32_le. rewrite map_length. apply chunks_length; [lia|exact H]. Qed.
Lemma does_chacha_new key nonce : does (t_chacha_new (words key) (words nonce)) (chacha_new key nonce) len16.
Proof.
  unfold t_chacha_new, chacha_new. rewrite !map_length.
  destruct (Nat.eqb_spec (length key) 32) as [K|]; cbn [negb]; [|split; [reflexivity|discriminate]].
  destruct (Nat.eqb_spec (length nonce) 12) as [N|]; cbn [negb]; [|split; [reflexivity|discriminate]].
  eapply does_let; [apply does_consts|intros _]. eapply does_let; [apply g_read_le|intros _]. st.
  eapply does_let; [apply g_read_le|intros _]. apply does_ret. unfold len16.
  rewrite !app_length, (read_u32_len key), (read_u32_len nonce), K, N by (rewrite ?K, ?N; reflexivity). reflexivity.
Qed.
Lemma does_qadd e x y : len16 e -> (x < 16)%nat -> (y < 16)%nat -> does (t_qadd e x y) (Ok (upd x (wadd (at_ e x) (at_ e y)) e)) len16.
Proof. unfold len16. intros L X Y. unfold t_qadd, wadd. repeat st. apply does_store; assumption. Qed.
Lemma does_qxor e x y : len16 e -> (x < 16)%nat -> (y < 16)%nat -> does (t_qxor e x y) (Ok (upd x (Z.lxor (at_ e x) (at_ e y)) e)) len16.
Proof. unfold len16. intros L X Y. unfold t_qxor. repeat st. apply does_store; assumption. Qed.
Lemma does_qrot e x n : len16 e -> (x < 16)%nat -> does (t_qrot e x n) (Ok (upd x (rotate_left (at_ e x) n) e)) len16.
Proof. unfold len16. intros L X. unfold t_qrot. repeat st. apply does_store; assumption. Qed.
Definition quarter (e : list Z) (q : nat * nat * nat * nat) : list Z := let '(a, b, c, d) := q in quarter_round e a b c d.
Lemma does_name {A B} (p : prog Z A) (k : A -> prog Z B) v (r : A -> res B) P Q :
  does p (Ok v) P -> (forall w, P w -> does (k w) (r w) Q) -> does (pbind p k) (r v) Q.
Proof. intros H K. eapply does_let; [exact H|]. apply K. Qed.
Ltac qstep :=
  lazymatch goal with |- does (pbind ?p ?k) (Ok (let x := ?X in @?B x)) ?Q => refine (does_name p k X (fun x => Ok (B x)) len16 Q _ _) end;
  [lazymatch goal with |- does (t_qadd _ _ _) _ _ => apply does_qadd | |- does (t_qxor _ _ _) _ _ => apply does_qxor | |- does (t_qrot _ _ _) _ _ => apply does_qrot end; assumption
  |cbv beta; intros ? ?].
Lemma does_quarter e q : In q quarters -> len16 e -> does (t_quarter_round e q) (Ok (quarter e q)) len16.
Proof.
  intros H L. destruct q as [[[a b] c] d].
  assert (Hq : (a < 16 /\ b < 16 /\ c < 16 /\ d < 16)%nat) by (cbn in H; repeat (destruct H as [H|H]; [injection H as <- <- <- <-; lia|]); contradiction).
  destruct Hq as (A & B & C & D). clear H. cbv beta iota delta [t_quarter_round quarter quarter_round].
  do 11 qstep. apply does_qrot; assumption.
Qed.
Lemma double_round_fold v : double_round v = fold_left quarter quarters v.
Proof. unfold double_round, quarters. cbn [fold_left quarter]. reflexivity. Qed.
Lemma iter_fold {A} (f : A -> A) n : forall i x, fold_left (fun v (_ : nat) => f v) (seq i n) x = Nat.iter n f x.
Proof.
  induction n as [|n IH]; intros i x; [reflexivity|]. cbn [seq fold_left]. rewrite IH. clear. revert x.
  induction n as [|n IH]; intros x; [reflexivity|]. cbn [Nat.iter nat_rect]. f_equal. apply IH.
Qed.
Lemma does_round20 v : len16 v -> does (t_round20 v) (Ok (round20 v)) len16.
Proof.
  intros L. unfold t_round20, round20. eapply does_let.
  - apply (does_fold _ (fun v (_ : nat) => double_round v) len16); [|exact L].
    intros s i _ S. rewrite double_round_fold. apply (does_fold t_quarter_round quarter len16 quarters); [|exact S].
    intros s' q Q S'. apply does_quarter; assumption.
  - rewrite iter_fold. set (u := Nat.iter 10 double_round v). clearbody u. intros U. cbv zeta. unfold len16 in *.
    assert (H := g_map (fun i : nat => i) (fun z : Z => z) (fun i => let! x := load u i in let! y := load v i in bin (Add 32) x y)
      (fun i => wadd (at_ u i) (at_ v i)) yes (seq 0 16)). rewrite map_id in H. destruct H as [E _].
    + intros i Hi. apply in_seq_lt in Hi. apply of_does. st. st. apply do_add.
    + split; [rewrite E; cbn [rbind]; rewrite map_id; reflexivity|]. intros a Ha. injection Ha as <-. reflexivity.
Qed.
Definition stream (s : bytes * list Z) : list Z * list Z := (words (fst s), snd s).
Lemma g_next m v : len16 v -> doesg stream (t_chacha_next m v) (chacha_next m v) (fun s => len16 (snd s) /\ length (fst s) = 64%nat).
Proof.
  intros L. unfold t_chacha_next, chacha_next. cbv zeta. eapply g_let1; [apply does_round20; exact L|intros R]. unfold len16 in L. st. st. st.
  eapply g_let1; [apply (does_store 16); [exact L|lia]|intros L'].
  eapply g_let; [apply g_write_le|intros _]. eapply (g_ret stream (_, _)). split; [exact L'|].
  cbn [fst]. unfold write_u32_le. unfold len16 in R. clear - R. revert R. generalize (round20 v) as l. intros l R.
  do 16 (destruct l as [|? l]; [discriminate|]). destruct l; [reflexivity|discriminate].
Qed.
Lemma g_xor_zip : forall a b, doesg words (t_xor_zip (words a) (words b)) (Ok (xor_zip a b)) yes.
Proof.
  induction a as [|x a IH]; intros [|y b]; cbn [map t_xor_zip xor_zip]; try (apply (g_ret words []); exact I).
  st. eapply g_let; [apply IH|intros _]. rewrite <- b2z_bxor. apply (g_ret words (bxor x y :: xor_zip a b)). exact I.
Qed.
Lemma g_chunks m cs : forall acc v, len16 v ->
  doesg stream (foldp (t_chacha_chunk m) (map words cs) (words acc, v)) (let* (r, v) := chacha_chunks m v cs in Ok (acc ++ r, v)) (fun s => len16 (snd s)).
Proof.
  induction cs as [|c cs IH]; intros acc v L; cbn [map foldp chacha_chunks].
  - cbn [rbind]. rewrite app_nil_r. apply (g_ret stream (acc, v)). exact L.
  - unfold t_chacha_chunk at 1. split.
    + rewrite run_bind. destruct (g_next m v L) as [E H]. rewrite run_bind, E. destruct (chacha_next m v) as [[nxt v']|e| |]; cbn [rbind]; try reflexivity.
      destruct (H _ eq_refl) as [L' _]. cbn [snd] in L'. unfold stream at 1. cbn [fst snd]. rewrite run_bind. destruct (g_xor_zip nxt c) as [F _]. rewrite F. cbn [rbind run].
      rewrite <- map_app. destruct (IH (acc ++ xor_zip nxt c) v' L') as [G _]. rewrite G. destruct (chacha_chunks m v' cs) as [[r w]|e| |]; cbn [rbind]; try reflexivity.
      rewrite app_assoc. reflexivity.
    + destruct (g_next m v L) as [_ H]. destruct (chacha_next m v) as [[nxt v']|e| |]; cbn [rbind]; try discriminate.
      destruct (H _ eq_refl) as [L' _]. cbn [snd] in L'. destruct (IH (acc ++ xor_zip nxt c) v' L') as [_ G].
      destruct (chacha_chunks m v' cs) as [[r w]|e| |]; cbn [rbind] in *; try discriminate. intros a Ha. injection Ha as <-. cbn [snd].
      exact (G _ eq_refl).
Qed.
Lemma g_encrypt m v d : len16 v -> doesg stream (t_chacha_encrypt m v (words d)) (chacha_encrypt m v d) (fun s => len16 (snd s)).
Proof.
  intros L. unfold t_chacha_encrypt, chacha_encrypt. rewrite chunks_words. destruct (g_chunks m (chunks 64 d) [] v L) as [E H]. split.
  - cbn [map] in E. rewrite E. destruct (chacha_chunks m v (chunks 64 d)) as [[r w]|e| |]; reflexivity.
  - intros a Ha. apply H. rewrite Ha. destruct a; reflexivity.
Qed.

(** ** Poly1305 *)
Definition tpo (p : poly) : tpoly Z := TPoly (pr p) (ph p) (ppad p).
Definition poly_lens (p : poly) : Prop := length (pr p) = 5%nat /\ length (ph p) = 5%nat /\ length (ppad p) = 4%nat.
Lemma do_le32 bs i j : does (t_le32 (words bs) i j) (Ok (le32 bs i j)) yes.
Proof. split; [|intros; exact I]. cbn [t_le32 run]. unfold le32, slice. rewrite skipn_map, firstn_map, pack_le. reflexivity. Qed.
Lemma do_limb0 bs i j mask : does (t_limb (words bs) i j 0 mask) (Ok (Z.land (le32 bs i j) mask)) yes.
Proof. unfold t_limb. eapply does_let; [apply do_le32|intros _]. rewrite Z.eqb_refl. eapply does_let; [apply (does_ret _ yes); exact I|intros _]. st. apply do_and. Qed.
Lemma do_limb bs i j n mask : (n =? 0) = false -> does (t_limb (words bs) i j n mask) (Ok (Z.land (wshr (le32 bs i j) n) mask)) yes.
Proof. intros N. unfold t_limb. eapply does_let; [apply do_le32|intros _]. rewrite N. st. st. apply do_and. Qed.
Lemma do_split64 d : does (t_split64 d) (Ok (as_u32 (Z.shiftr d 26), Z.land (as_u32 d) 0x3ffffff)) yes.
Proof. unfold t_split64, as_u32. do 5 st. apply does_ret. exact I. Qed.
Lemma do_split32 h : does (t_split32 h) (Ok (wshr h 26, Z.land h 0x3ffffff)) yes.
Proof. unfold t_split32. do 3 st. apply does_ret. exact I. Qed.
Lemma do_dot5 m a0 b0 a1 b1 a2 b2 a3 b3 a4 b4 : does (t_dot5 m a0 b0 a1 b1 a2 b2 a3 b3 a4 b4) (dot5 m a0 b0 a1 b1 a2 b2 a3 b3 a4 b4) yes.
Proof. unfold t_dot5, dot5, mul64, add64. do 8 st. apply do_cadd. Qed.
Lemma do_wadd x y : does (bin (Add 32) x y) (Ok (wadd x y)) yes. Proof. exact (do_add 32 x y). Qed.
Lemma do_wsub x y : does (bin (Sub 32) x y) (Ok (as_u32 (x - y))) yes. Proof. exact (do_sub 32 x y). Qed.
Lemma do_wshr n x : does (un (Shr n) x) (Ok (wshr x n)) yes. Proof. exact (do_shr n x). Qed.
Lemma do_as x : does (un (Low 32) x) (Ok (as_u32 x)) yes. Proof. exact (do_low32 x). Qed.
Lemma do_add32 m x y : does (checked m (Add 32) x y) (add32 m x y) yes. Proof. exact (do_cadd m 32 x y). Qed.
Lemma do_add64 m x y : does (checked m (Add 64) x y) (add64 m x y) yes. Proof. exact (do_cadd m 64 x y). Qed.
Lemma do_mul32 m x y : does (checked m (Mul 32) x y) (mul32 m x y) yes. Proof. exact (do_cmul m 32 x y). Qed.
Ltac pst :=
  lazymatch goal with
  | |- doesg _ (pbind (checked _ (Add 32) _ _) _) _ _ => eapply g_then; [apply do_add32|intros ? _ _]
  | |- doesg _ (pbind (checked _ (Add 64) _ _) _) _ _ => eapply g_then; [apply do_add64|intros ? _ _]
  | |- doesg _ (pbind (checked _ (Mul 32) _ _) _) _ _ => eapply g_then; [apply do_mul32|intros ? _ _]
  | |- doesg _ (pbind (t_dot5 _ _ _ _ _ _ _ _ _ _ _) _) _ _ => eapply g_then; [apply do_dot5|intros ? _ _]
  | |- doesg _ (pbind (bin (Add 32) _ _) _) _ _ => eapply g_let1; [apply do_wadd|intros _]
  | |- doesg _ (pbind (bin (Sub 32) _ _) _) _ _ => eapply g_let1; [apply do_wsub|intros _]
  | |- doesg _ (pbind (un (Shr 32) _) _) _ _ => eapply g_let1; [apply do_shr|intros _]
  | |- doesg _ (pbind (un (Shr _) _) _) _ _ => eapply g_let1; [apply do_wshr|intros _]
  | |- doesg _ (pbind (un (Low 32) _) _) _ _ => eapply g_let1; [apply do_as|intros _]
  | |- doesg _ (pbind (t_limb _ _ _ 0 _) _) _ _ => eapply g_let1; [apply do_limb0|intros _]
  | |- doesg _ (pbind (t_limb _ _ _ _ _) _) _ _ => eapply g_let1; [apply do_limb; reflexivity|intros _]
  | |- doesg _ (pbind (t_le32 _ _ _) _) _ _ => eapply g_let1; [apply do_le32|intros _]
  | |- doesg _ (pbind (t_split64 _) _) _ _ => eapply g_let1; [apply do_split64|intros _; cbv beta iota]
  | |- doesg _ (pbind (t_split32 _) _) _ _ => eapply g_let1; [apply do_split32|intros _; cbv beta iota]
  | |- doesg _ (pbind _ _) _ _ => st
  end.
Lemma g_poly_new r s : length s = 16%nat -> doesg tpo (t_poly_new (words r) (words s)) (Ok (poly_new r s)) poly_lens.
Proof.
  intros S. unfold t_poly_new. do 5 pst. eapply g_let1; [apply does_consts|intros _]. eapply g_let1; [apply g_read_le|intros _].
  apply (g_ret tpo (poly_new r s)). repeat split. cbn [ppad poly_new]. rewrite (read_u32_len s), S by (rewrite S; reflexivity). reflexivity.
Qed.
Lemma g_compute_block m p b partial : poly_lens p -> doesg tpo (t_compute_block m (tpo p) (words b) partial) (compute_block m p b partial) poly_lens.
Proof.
  intros (R & H & D). unfold t_compute_block, compute_block. cbv zeta. cbn [tpr tph tppad tpo].
  repeat pst. apply (g_ret tpo (Poly (pr p) [_; _; _; _; _] (ppad p))). repeat split; assumption.
Qed.
Lemma g_finalize m p : poly_lens p -> doesg words (t_finalize m (tpo p)) (finalize m p) (fun b => length b = 16%nat).
Proof.
  intros (R & H & D). unfold t_finalize, finalize. cbv zeta. cbn [tpr tph tppad tpo].
  repeat pst. exact (g_write_le [_; _; _; _]).
Qed.
Lemma words_zeros n : words (zeros n) = repeat 0 n.
Proof. unfold zeros. induction n as [|n IH]; [reflexivity|]. cbn [repeat map]. rewrite IH. reflexivity. Qed.
Lemma g_poly_block m p b : poly_lens p ->
  doesg tpo (t_poly_block m (tpo p) (words b))
    (if Nat.eqb (length b) 16 then compute_block m p b false else compute_block m p (b ++ [x01] ++ zeros (15 - length b)) true) poly_lens.
Proof.
  intros L. unfold t_poly_block. rewrite map_length. destruct (Nat.eqb (length b) 16); [apply g_compute_block; exact L|].
  eapply g_let1; [apply does_consts|intros _]. cbv beta.
  replace (words b ++ 1 :: repeat 0 (15 - length b)) with (words (b ++ [x01] ++ zeros (15 - length b))); [apply g_compute_block; exact L|].
  rewrite !map_app, words_zeros. reflexivity.
Qed.
Lemma g_poly_blocks m bs : forall p, poly_lens p -> doesg tpo (foldp (t_poly_block m) (map words bs) (tpo p)) (poly_blocks m p bs) poly_lens.
Proof.
  induction bs as [|b bs IH]; intros p L; cbn [map foldp poly_blocks]; [apply g_ret; exact L|].
  eapply g_bind; [apply g_poly_block; exact L|]. intros q _ Q. apply IH. exact Q.
Qed.
Lemma g_authenticate m msg r s : length s = 16%nat -> doesg words (t_authenticate m (words msg) (words r) (words s)) (authenticate m msg r s) (fun b => length b = 16%nat).
Proof.
  intros S. unfold t_authenticate, authenticate. eapply g_let; [apply g_poly_new; exact S|]. intros L. rewrite chunks_words.
  eapply g_bind; [apply g_poly_blocks; exact L|]. intros p _ P. apply g_finalize. exact P.
Qed.

(** ** The AEAD *)
Lemma words_pad16 bs : words (pad16 bs) = repeat 0 (pad_count (length bs)).
Proof. unfold pad16, pad_count. cbv zeta. destruct (Nat.eqb _ 16); [reflexivity|apply words_zeros]. Qed.
Lemma g_compute_mac m key enc ad : length key = 64%nat -> doesg words (t_compute_mac m (words key) (words enc) (words ad)) (compute_mac m key enc ad) (fun b => length b = 16%nat).
Proof.
  intros K. unfold t_compute_mac, compute_mac. unfold zlen. rewrite !map_length. do 4 (eapply g_let1; [apply does_consts|intros _]). cbv beta.
  rewrite <- !words_pad16, !skipn_map, !firstn_map.
  replace (words ad ++ _) with (words (mac_input enc ad)).
  2:{ unfold mac_input, zlen. rewrite !map_app. reflexivity. }
  apply g_authenticate. unfold slice. rewrite firstn_length, skipn_length, K. reflexivity.
Qed.
Lemma g_seal m key nonce data ad : doesg words (t_seal m (words key) (words nonce) (words data) (words ad)) (aead_encrypt m key nonce data ad) yes.
Proof.
  unfold t_seal, aead_encrypt. eapply g_then; [apply does_chacha_new|]. intros v _ V.
  eapply g_bind; [apply g_next; exact V|]. intros [key1 v1] _ [V1 K]. cbn [stream fst snd] in *.
  eapply g_bind; [apply g_encrypt; exact V1|]. intros [enc v2] _ _. cbn [stream fst snd] in *.
  eapply g_bind; [apply g_compute_mac; exact K|]. intros mac _ _. rewrite <- map_app. apply (g_ret words). exact I.
Qed.
Lemma at_words a i : at_ (words a) i = b2z (nth i a x00).
Proof. unfold at_. change 0 with (b2z x00). apply map_nth. Qed.
Lemma does_diff a b : length a = 16%nat -> length b = 16%nat ->
  does (foldp (fun diff i => let! x := load (words a) i in let! y := load (words b) i in let! e := bin Xor x y in bin Or diff e) (seq 0 MAC_LEN) 0)
    (Ok (mac_diff a b)) yes.
Proof.
  intros A B. unfold mac_diff. apply (does_fold _ (fun diff i => Z.lor diff (b2z (bxor (nth i a x00) (nth i b x00)))) yes); [|exact I].
  intros d i Hi _. apply in_seq_lt in Hi. unfold MAC_LEN in Hi.
  eapply does_let; [apply does_load; rewrite map_length; lia|intros _]. eapply does_let; [apply does_load; rewrite map_length; lia|intros _].
  rewrite !at_words, b2z_bxor. st. apply do_or.
Qed.
Lemma run_no_err {A} (p : prog Z A) e : run p <> Err e.
Proof. induction p; cbn [run]; auto; try discriminate; [destruct (nth_error a i)|destruct (i <? length a)%nat]; auto; discriminate. Qed.
(** what [decrypt] returns, written as the program writes it *)
Definition opened (r : res bytes) : res (option (list Z)) :=
  match r with Ok p => Ok (Some (words p)) | Err _ => Ok None | Panic => Panic | Diverge => Diverge end.
Definition body (m : mode) (key nonce data ad : bytes) : res (bytes * Z) :=
  let encrypted := firstn (length data - MAC_LEN) data in
  let mac_expected := skipn (length data - MAC_LEN) data in
  let* chacha20 := chacha_new key nonce in
  let* (poly_key, chacha20) := chacha_next m chacha20 in
  let* mac_computed := compute_mac m poly_key encrypted ad in
  let* (plain, _) := chacha_encrypt m chacha20 encrypted in
  Ok (plain, mac_diff mac_computed mac_expected).
Definition plain_diff (s : bytes * Z) : list Z * Z := (words (fst s), snd s).
#[local] Opaque mac_diff compute_mac chacha_encrypt chacha_next chacha_new t_chacha_new t_chacha_next t_compute_mac t_chacha_encrypt foldp.
Lemma g_body m key nonce data ad : (MAC_LEN <= length data)%nat ->
  doesg plain_diff (t_open_body m (words key) (words nonce) (words data) (words ad)) (body m key nonce data ad) yes.
Proof.
  intros D. unfold t_open_body, body. cbv zeta. rewrite !map_length, !firstn_map, !skipn_map.
  eapply g_then; [apply does_chacha_new|]. intros v _ V.
  eapply g_bind; [apply g_next; exact V|]. intros [key1 v1] _ [V1 K]. cbn [stream fst snd] in *.
  eapply g_bind; [apply g_compute_mac; exact K|]. intros mac _ M.
  eapply g_bind; [apply g_encrypt; exact V1|]. intros [plain v2] _ _. cbn [stream fst snd] in *. st.
  eapply g_let1; [apply does_diff; [exact M|rewrite skipn_length; unfold MAC_LEN in *; lia]|intros _]. 
  generalize (mac_diff mac (skipn (length data - MAC_LEN) data)) as d. intros d. exact (g_ret plain_diff (plain, d) yes I).
Qed.
Lemma open_body m key nonce data ad : aead_decrypt m key nonce data ad =
  if (length data <? MAC_LEN)%nat then Err BadRecordMac else let* (plain, diff) := body m key nonce data ad in if diff =? 0 then Ok plain else Err BadRecordMac.
Proof.
  unfold aead_decrypt, body. cbv zeta. destruct (length data <? MAC_LEN)%nat; [reflexivity|].
  destruct (chacha_new key nonce) as [v| | |]; cbn [rbind]; try reflexivity.
  destruct (chacha_next m v) as [[k v1]| | |]; cbn [rbind]; try reflexivity.
  destruct (compute_mac _ _ _ _) as [mac| | |]; cbn [rbind]; try reflexivity.
  destruct (chacha_encrypt _ _ _) as [[pl v2]| | |]; cbn [rbind]; reflexivity.
Qed.
Lemma open_same_result m key nonce data ad :
  run (t_open m (words key) (words nonce) (words data) (words ad)) = opened (aead_decrypt m key nonce data ad).
Proof.
  rewrite open_body. unfold t_open. rewrite map_length. destruct (Nat.ltb_spec (length data) MAC_LEN) as [|D]; [reflexivity|].
  rewrite run_bind. destruct (g_body m key nonce data ad D) as [E _]. rewrite E. 
  destruct (body m key nonce data ad) as [[pl d]|e| |]; cbn [rbind opened]; try reflexivity; [|destruct (run_no_err _ _ E)].
  cbn [plain_diff fst snd jump pbind run]. destruct (d =? 0); reflexivity.
Qed.
