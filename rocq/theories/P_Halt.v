(** The AEAD always returns; so do the readers that use it. *)
From Verif Require Import M_Client Spec_Client P_RecordR P_Record.
From Coq Require Import ZifyBool ZifyNat ZifyN.
Local Open Scope Z_scope.

(** [x] is a value, an error or a panic *)
Lemma halts_bind {A B} (x : res A) (f : A -> res B) : halts x -> (forall a, halts (f a)) -> halts (rbind x f).
Proof. intros H K. destruct x; [apply K|exact I|exact I|exact H]. Qed.
Lemma ck_halts m w x : halts (ck m w x).
Proof. unfold ck. destruct (_ && _); [exact I|]. destruct m; exact I. Qed.
Local Ltac step := lazymatch goal with
  | |- halts (let x := ?v in @?b x) => assert (forall y, halts (b y)) as H0; [intros ?; cbv beta|exact (H0 v)]
  | |- halts (rbind _ _) => apply halts_bind; [try apply ck_halts|intros]
  | |- halts (Ok _) => exact I
  end.
Lemma dot5_halts m a0 b0 a1 b1 a2 b2 a3 b3 a4 b4 : halts (dot5 m a0 b0 a1 b1 a2 b2 a3 b3 a4 b4).
Proof. unfold dot5. repeat step. apply ck_halts. Qed.
Lemma compute_block_halts m p b l : halts (compute_block m p b l).
Proof. unfold compute_block. repeat first [step|apply dot5_halts]. Qed.
Lemma finalize_halts m p : halts (finalize m p).
Proof. unfold finalize. repeat step. Qed.
Lemma authenticate_halts m msg r s : halts (authenticate m msg r s).
Proof.
  unfold authenticate. apply halts_bind; [|intros; apply finalize_halts]. generalize (poly_new r s).
  induction (chunks 16 msg) as [|b bs IH]; intros p; [exact I|]. cbn [poly_blocks]. apply halts_bind; [|intros; apply IH].
  destruct (Nat.eqb (length b) 16); apply compute_block_halts.
Qed.
Lemma chacha_next_halts m v : halts (chacha_next m v).
Proof. unfold chacha_next. repeat step. Qed.
Lemma chacha_encrypt_halts m v d : halts (chacha_encrypt m v d).
Proof.
  unfold chacha_encrypt. revert v. induction (chunks 64 d) as [|c cs IH]; intros v; [exact I|]. cbn [chacha_chunks].
  apply halts_bind; [apply chacha_next_halts|]. intros []. apply halts_bind; [apply IH|]. intros []. exact I.
Qed.
Lemma chacha_new_halts k n : halts (chacha_new k n).
Proof. unfold chacha_new. destruct (negb _); [exact I|]. destruct (negb _); exact I. Qed.
Lemma aead_decrypt_halts m k n d a : halts (aead_decrypt m k n d a).
Proof.
  unfold aead_decrypt. destruct (_ <? _)%nat; [exact I|]. cbv zeta. apply halts_bind; [apply chacha_new_halts|]. intros v.
  apply halts_bind; [apply chacha_next_halts|]. intros []. apply halts_bind; [apply authenticate_halts|]. intros t.
  apply halts_bind; [apply chacha_encrypt_halts|]. intros []. destruct (_ =? 0); exact I.
Qed.
Lemma aead_encrypt_halts m k n d a : halts (aead_encrypt m k n d a).
Proof.
  unfold aead_encrypt. apply halts_bind; [apply chacha_new_halts|]. intros v.
  apply halts_bind; [apply chacha_next_halts|]. intros []. apply halts_bind; [apply chacha_encrypt_halts|]. intros [].
  apply halts_bind; [apply authenticate_halts|]. intros t. exact I.
Qed.
Lemma decryptor_terminates m k : terminates (Some (new_decryptor m k)).
Proof. intros n c a E. pose proof (aead_decrypt_halts m k n c a) as H. cbn [new_decryptor dc_decrypt] in E. rewrite E in H. exact H. Qed.

Lemma halts_neq {A} (x : res A) : halts x <-> x <> Diverge.
Proof. destruct x; cbn; intuition discriminate. Qed.
Lemma read_message_halts m r : terminates (r_dec r) -> halts (fst (read_message m r)).
Proof. intros H. apply halts_neq, read_message_terminates, H. Qed.
Lemma read_handshake_halts m r : terminates (r_dec r) -> halts (fst (read_handshake m r)).
Proof.
  intros H. apply (read_message_halts m) in H. unfold read_handshake, mbind. destruct (read_message m r) as [[[]| | |] r1]; exact H || exact I.
Qed.
Lemma read_ccs_halts m r : terminates (r_dec r) -> halts (fst (read_change_cipher_spec m r)).
Proof.
  intros H. apply (read_message_halts m) in H. unfold read_change_cipher_spec, mbind. destruct (read_message m r) as [[[]| | |] r1]; exact H || exact I.
Qed.
Lemma read_app_halts m r : terminates (r_dec r) -> halts (fst (read_application_data m r)).
Proof.
  intros H. apply (read_message_halts m) in H. unfold read_application_data, mbind. destruct (r_dec r); [|exact I].
  destruct (read_message m r) as [[[| |[l []]|]| | |] r1]; exact H || exact I.
Qed.
