(** Proofs about src/tls.rs: what [read_application_data] makes of each message. *)
From Verif Require Import Spec_Record.
Local Open Scope list_scope.
Local Open Scope Z_scope.

Lemma app_outcomes m r : r_dec r <> None ->
  match read_message m r with
  | (Ok (ApplicationDataMessage d), r') => read_application_data m r = (Ok d, r')
  | (Ok (AlertMessage a), r') => (al_desc a = AD_close_notify -> read_application_data m r = (Ok [], r')) /\
                                 (al_desc a <> AD_close_notify -> read_application_data m r = (Panic, r'))
  | (Ok _, r') => read_application_data m r = (Panic, r')
  | (Err k, r') => read_application_data m r = (Err k, r')
  | (Panic, r') => read_application_data m r = (Panic, r')
  | (Diverge, r') => read_application_data m r = (Diverge, r')
  end.
Proof.
  intros D. unfold read_application_data. destruct (r_dec r) as [dd|]; [|contradiction]. unfold mbind.
  destruct (read_message m r) as [[msg|k| |] r']; try reflexivity. destruct msg as [h| |[l d]|d0]; try reflexivity.
  cbn [al_desc]. destruct d; (split; [intros E; try discriminate E; try reflexivity|intros N; try reflexivity; exfalso; apply N; reflexivity]).
Qed.
Lemma app_before_keys m r : r_dec r = None -> read_application_data m r = (Panic, r).
Proof. intros D. unfold read_application_data. rewrite D. reflexivity. Qed.

(** ** keys are installed once *)
Lemma keys_once :
  (forall e w, w_set_encryptor e w = match w_enc w with
     | None => (Ok tt, Writer (w_out w) (w_plan w) (Some e) 0 (w_iv w) (w_log w)) | Some _ => (Panic, w) end) /\
  (forall iv w, w_set_iv iv w = match w_iv w with
     | None => (Ok tt, Writer (w_out w) (w_plan w) (w_enc w) (w_count w) (Some iv) (w_log w)) | Some _ => (Panic, w) end) /\
  (forall d r, r_set_decryptor d r = match r_dec r with
     | None => (Ok tt, Reader (r_src r) (Some d) 0 (r_buf r) (r_iv r)) | Some _ => (Panic, r) end) /\
  (forall iv r, r_set_iv iv r = match r_iv r with
     | None => (Ok tt, Reader (r_src r) (r_dec r) (r_count r) (r_buf r) (Some iv)) | Some _ => (Panic, r) end).
Proof.
  split; [|split; [|split]]; intros x y; [destruct y as [o p [e|] n i l]|destruct y as [o p e n [i|] l]|destruct y as [s [d|] n b i]|destruct y as [s d n b [i|]]]; reflexivity.
Qed.
