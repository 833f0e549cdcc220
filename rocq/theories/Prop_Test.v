(** Property C80: the crate's own record tests, for all data, all ciphers and all IVs. *)
From Verif Require Import Spec_Record Spec_Test M_Test P_Test.

(** both tests of src/test.rs pass, in debug and release builds *)
Theorem C80_change_cipher_spec_test : forall m, test_change_cipher_spec_message m = Ok tt.
Proof. exact ccs_test. Qed.
Print Assumptions C80_change_cipher_spec_test.
Theorem C80_application_test : forall m, test_application_message m = Ok tt.
Proof. exact application_message_test. Qed.
Print Assumptions C80_application_test.
(** the second one would pass with any data *)
Theorem C80_application_test_all_data : forall m first second, zlen first = 16384 -> 1 <= zlen second <= 16384 ->
  application_test m (first ++ second) first second = Ok tt.
Proof. exact app_test. Qed.
Print Assumptions C80_application_test_all_data.
(** and with no other pieces *)
Theorem C80_application_test_fails : forall m first second x y, zlen first = 16384 -> 1 <= zlen second <= 16384 -> x <> first \/ y <> second ->
  application_test m (first ++ second) x y = Panic.
Proof. exact app_test_fails. Qed.
Print Assumptions C80_application_test_fails.

(** data of any length arrives cut after every 16384 bytes, with any cipher, any IV or none, at any sequence number *)
Theorem C80_pieces : forall m data w r, healthy w -> agreed_any_iv w r -> w_enc w <> None -> w_count w + zlen data < 2 ^ 64 ->
  exists w' bs ps, write_application_data m data w = (Ok tt, w') /\ w_out w' = w_out w ++ bs /\ cut_every (Z.to_nat 16384) data ps /\
    forall r2 rest, agreed_any_iv w r2 -> stream (r_src r2) = bs ++ rest ->
      exists r', reads (read_message m) (length ps) r2 = (map Ok (map ApplicationDataMessage ps), r') /\ stream (r_src r') = rest.
Proof. exact app_exact. Qed.
Print Assumptions C80_pieces.
(** there is one way of cutting *)
Theorem C80_cut_unique : forall n d ps qs, (0 < n)%nat -> cut_every n d ps -> cut_every n d qs -> ps = qs.
Proof. exact cut_unique. Qed.
Print Assumptions C80_cut_unique.
(** every sequence of messages arrives, whatever the IV *)
Theorem C80_any_iv : forall m os, Forall wf_msg_op os -> forall w r, healthy w -> agreed_any_iv w r ->
  w_count w + payloads os < 2 ^ 64 -> (forall d, In (SendApp d) os -> w_enc w <> None) ->
  exists w' bs ms, run_ops m (map as_wop os) w = (repeat (Ok tt) (length os), w') /\
    w_out w' = w_out w ++ bs /\ delivers os ms /\
    forall r2 rest, agreed_any_iv w r2 -> stream (r_src r2) = bs ++ rest ->
      exists r', reads (read_message m) (length ms) r2 = (map Ok ms, r') /\
                 stream (r_src r') = rest /\ agreed_any_iv w' r'.
Proof. exact any_iv. Qed.
Print Assumptions C80_any_iv.

Example ex_null_agreed : agreed_any_iv (Writer [] [] (Some null_encryptor) 5 None []) (Reader [] (Some null_decryptor) 5 [] None) /\
  agreed_any_iv (Writer [] [] (Some null_encryptor) 5 (Some [x01]) []) (Reader [] (Some null_decryptor) 5 [] (Some [x01])).
Proof. split; (repeat (split; [reflexivity || discriminate|]); split; [exact null_opens|split; discriminate]). Qed.
Example ex_cut : cut_every 2 [x01; x02; x03] [[x01; x02]; [x03]].
Proof. apply (Cut_more 2 [x01; x02] [x03]); [reflexivity|discriminate|]. constructor. cbn. lia. Qed.
(** a test that must fail does fail *)
Example ex_wrong_piece : application_test Debug [x01; x02] [x01] [x02] = Panic.
Proof. vm_compute. reflexivity. Qed.
Example ex_one_piece : application_test Debug [x01; x02] [x01; x02] [] = Panic /\ application_test Release [] [] [] = Panic.
Proof. split; vm_compute; reflexivity. Qed.
