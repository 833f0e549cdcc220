(** C117: tries that are always enough. *)
From Verif Require Import Spec_Guess P_Guess P_Guess2 P_Repeat3 P_Aead P_Poly P_Commit P_Life.
From Coq Require Import ZifyBool ZifyNat ZifyN.
Local Open Scope list_scope.
Local Open Scope Z_scope.

(** ** C117 *)
(** with a record whose data is known, held back, there are [2^106] records with another ciphertext of which one is accepted in its place, whatever the keys: the calls of [read] before it return zero bytes, and then one returns the other data *)
Theorem C117_enough : forall k p p' c t, legal_fragment p' -> (length p' <= length p)%nat -> length t = 16%nat -> k + 1 < 2 ^ 64 ->
  exists attempts, Z.of_nat (length attempts) = 2 ^ 106 /\ Forall (fun a => length a = 16%nat) attempts /\
  forall m key iv cl ns rest, keyed m (c_reader cl) key iv k -> no_pending (c_reader cl) -> c_buf cl = [] ->
    aead_seal key (rfc_nonce iv k) (rfc_ad k ApplicationDataTy x03 x03 (zlen p)) p = c ++ t -> (length attempts <= length ns)%nat ->
    stream (r_src (c_reader cl)) = concat (map (fun a => on_wire (with_tag (swapped c p p') a)) attempts) ++ rest ->
    exists n c1 c2, (n < length attempts)%nat /\ vain m (firstn n ns) cl c1 /\ client_read m (length p') c1 = (Ok p', c2).
Proof. exact guessed. Qed.
Print Assumptions C117_enough.
(** nor need the data be known: any bits of it are changed *)
Theorem C117_blind : forall k c t e, legal_fragment e -> (length e <= length c)%nat -> length t = 16%nat -> k + 1 < 2 ^ 64 ->
  exists attempts, Z.of_nat (length attempts) = 2 ^ 106 /\ Forall (fun a => length a = 16%nat) attempts /\
  forall m key iv cl p ns rest, keyed m (c_reader cl) key iv k -> no_pending (c_reader cl) -> c_buf cl = [] ->
    aead_seal key (rfc_nonce iv k) (rfc_ad k ApplicationDataTy x03 x03 (zlen p)) p = c ++ t -> (length attempts <= length ns)%nat ->
    stream (r_src (c_reader cl)) = concat (map (fun a => on_wire (with_tag (changed c e) a)) attempts) ++ rest ->
    exists n c1 c2, (n < length attempts)%nat /\ vain m (firstn n ns) cl c1 /\ client_read m (length e) c1 = (Ok (changed p e), c2).
Proof. exact blind_guessed. Qed.
Print Assumptions C117_blind.
(** tries of which one has the right tag for every one-time key that explains the record seen are at least [2^92] *)
Theorem C117_needed : forall m k g attempts, (16 <= length (f_body g))%nat -> zlen (f_body g) <= 18432 -> Forall (fun a => a <> g /\ zlen (f_body a) <= 18432) attempts ->
  (forall otk, length otk = 32%nat -> tag_right m k otk g -> Exists (tag_right m k otk) attempts) -> 2 ^ 92 <= Z.of_nat (length attempts).
Proof. exact needed. Qed.
Print Assumptions C117_needed.
(** and [2^106] are enough, for any other ciphertext *)
Theorem C117_sufficient : forall m k c t c', length t = 16%nat -> exists attempts, Z.of_nat (length attempts) = 2 ^ 106 /\
  Forall (fun a => exists tag, length tag = 16%nat /\ a = with_tag c' tag) attempts /\
  forall otk, length otk = 32%nat -> tag_right m k otk (with_tag c t) -> Exists (tag_right m k otk) attempts.
Proof. exact sufficient. Qed.
Print Assumptions C117_sufficient.

(** ** Examples *)
(** the hypotheses, for any stream *)
Example ex_enough : forall m bs, exists cl c t, keyed m (c_reader cl) (repeat x00 32) (repeat x00 12) 1 /\ no_pending (c_reader cl) /\ c_buf cl = [] /\
  aead_seal (repeat x00 32) (rfc_nonce (repeat x00 12) 1) (rfc_ad 1 ApplicationDataTy x03 x03 3) [x61; x62; x63] = c ++ t /\ length t = 16%nat /\ stream (r_src (c_reader cl)) = bs.
Proof.
  intros m bs. exists (Client (Reader (source bs) (Some (new_decryptor m (repeat x00 32))) 1 [] (Some (repeat x00 12))) (writer_new []) [] []).
  eexists _, _. split; [repeat split; discriminate|]. split; [reflexivity|]. split; [reflexivity|]. split; [reflexivity|]. split; [apply poly1305_mac_length|]. apply source_stream.
Qed.
(** those of [C117_needed] are met by the tries of [C117_sufficient] *)
Example ex_needed : forall m, exists attempts, let g := with_tag [x61] (repeat x00 16) in (16 <= length (f_body g))%nat /\ zlen (f_body g) <= 18432 /\
  Forall (fun a => a <> g /\ zlen (f_body a) <= 18432) attempts /\ forall otk, length otk = 32%nat -> tag_right m 1 otk g -> Exists (tag_right m 1 otk) attempts.
Proof.
  intros m. destruct (sufficient m 1 [x61] (repeat x00 16) [x62] eq_refl) as (l & _ & F & W). exists l. cbv zeta. split; [cbn; lia|]. split; [discriminate|]. split; [|exact W].
  eapply Forall_impl; [|exact F]. cbn beta. intros a (t & Lt & ->). split; [discriminate|]. unfold with_tag, zlen. cbn [f_body]. rewrite app_length, Lt. discriminate.
Qed.
