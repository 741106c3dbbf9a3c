(* Rules for the functions of Model/HeapProtocol.v that work on contexts and packets. *)
From Verif.Base Require Import Bytes Monad.
From Verif.Model Require Import Buffer CString Cipher Ecdsa Kdf Prims Engine Keys Identity Node EcdhCipher Exchange Payload Packet Ctx Proto Heap HeapObjects HeapMessages HeapParse HeapWrite HeapEngine HeapProtocol.
From Verif.Spec Require Import HeapSpec HeapObjectSpec BufferSpec CopySpec HeapParseSpec HeapWriteSpec HeapEngineSpec HeapProtocolSpec.
From Verif.Proofs Require Import BufferFacts HeapFacts HeapObjectFacts HeapMessageFacts HeapCtxFacts HeapParseFacts HeapWriteFacts HeapEngineFacts HeapKdfFacts HeapProtocolFacts HeapExchangeFacts.
From Verif.Proofs Require CopyFacts ParserFacts.
From Coq Require Import Permutation ZifyBool ZifyNat ZifyN.
Local Open Scope N_scope.

Ltac fits := let h := fresh "h" in let M := fresh "M" in intros h M; unfold all_in_memory in *; cbn [app oc option_map] in *;
  repeat match goal with M : Forall _ (_ :: _) |- _ => inversion M; clear M; subst end;
  repeat (apply Forall_cons; [first [assumption|apply in_memory_nil]|]); apply Forall_nil.
Section storage.
  Context (P : prims).
  Lemma protect_rule (R : rand_ok P) (A : aead_ok P) (C : ctr_ok P) (R1 : scrypt_ok P) (R2 : hkdf_ok P) ser args pure public untested p s :
    op_rule buf_cells b_bytes args pure public [] untested never_leaks_op ser ->
    op_rule buf_cells b_bytes (args ++ [buf_cells p]) (match pure with Val d => fst (kdf_cipher P KDF_SCRYPT_2_17 default_cipher (Some d) (Some (b_bytes p)) s) | Null => Null | UB => UB end)
      (public ++ protect_public P pure (Some (b_bytes p)) s) (protect_exposed P (Some (b_bytes p)) s) (untested ++ T_cipher_result :: buffer_kinds) some_failure (h_protect P ser p s).
  Proof.
    intros RS. unfold h_protect.
    exact (with_serialized buf_cells b_bytes ser args pure public untested [buf_cells p] (fun d => fst (kdf_cipher P KDF_SCRYPT_2_17 default_cipher (Some d) (Some (b_bytes p)) s))
      (fun b => kdf_cipher_public P KDF_SCRYPT_2_17 default_cipher b (b_bytes p) s) _ _ _ _ RS (fun b _ => kdf_cipher_rule P R A C R1 R2 KDF_SCRYPT_2_17 default_cipher b p s)).
  Qed.
  Lemma touched {T V} (cells : T -> list cell) (value : T -> V) args pure public exposed untested leak a op :
    op_rule cells value args pure public exposed untested leak op -> (forall h, all_in_memory h args -> mem h a = Some []) ->
    op_rule cells value args pure public exposed untested leak (touch a ;;; op)%h.
  Proof.
    intros R MM. begin. pose proof (MM _ M) as MA. wstep. wstep. eapply R with (W := W); eassumption.
  Qed.
  Lemma export_recovery_key_rule (R : rand_ok P) (A : aead_ok P) (C : ctr_ok P) (R1 : scrypt_ok P) (R2 : hkdf_ok P) g p s :
    op_rule buf_cells b_bytes [oc gr_cells g; oc buf_cells p] (fst (export_recovery_key_passphrase P (option_map gr_value g) (option_map b_bytes p) s))
      (protect_public P (match option_map gr_value g with Some x => lift (cipher_key_serialize (Some (gr_recovery_key x))) | None => Null end) (option_map b_bytes p) s)
      (protect_exposed P (option_map b_bytes p) s) (T_cipher_result :: buffer_kinds) some_failure (h_export_recovery_key_passphrase P g p s).
  Proof.
    destruct g as [g|]; [|absent h_export_recovery_key_passphrase]. destruct p as [p|]; [|absent h_export_recovery_key_passphrase].
    unfold h_export_recovery_key_passphrase. apply touched.
    - eapply op_weaken; [eapply op_same; [exact (protect_rule R A C R1 R2 _ _ _ _ _ p s (write_op ck_cells ck_value _ _ _ _ (hgr_recovery g) cipher_key_write))|]| | | | |].
      + unfold export_recovery_key_passphrase, mbind, mlift, mres. cbn [option_map gr_value gr_recovery_key]. destruct (cipher_key_serialize _); reflexivity.
      + intros h M. unfold all_in_memory in *. cbn [app oc] in *. inversion M; subst; clear M. parts H1 gr_cells. repeat (apply Forall_cons; [assumption|]). exact H2.
      + cbn [option_map gr_value gr_recovery_key nothing app]. apply incl_refl.
      + cbn [option_map]. apply incl_refl.
      + apply incl_refl.
      + auto.
    - intros h M. inversion M; subst; clear M. parts H1 gr_cells. assumption.
  Qed.
  Lemma import_recovery_key_rule (A : aead_len_ok P) (C : ctr_ok P) (R1 : scrypt_ok P) (R2 : hkdf_ok P) e p draft :
    op_rule ck_cells ck_value [oc buf_cells e; oc buf_cells p] (import_recovery_key_passphrase P (option_map b_bytes e) (option_map b_bytes p))
      (unprotect_public P no_bytes (option_map b_bytes e) (option_map b_bytes p)) (unprotect_exposed P (option_map b_bytes e) (option_map b_bytes p))
      [T_cipher_result; T_cipher_key] (unprotect_leak P (option_map b_bytes e) (option_map b_bytes p)) (h_import_recovery_key_passphrase P e p draft).
  Proof.
    destruct e as [e|]; [|absent h_import_recovery_key_passphrase]. destruct p as [p|]; [|absent h_import_recovery_key_passphrase].
    eapply op_weaken; [eapply op_same; [exact (with_opened _ _ _ _ _ _ _ _ _ _ _ _ _ _ (kdf_decipher_rule P A C R1 R2 e p draft) cipher_key_parse_rule)|]| | | | |].
    - unfold import_recovery_key_passphrase. cbn [option_map]. destruct (kdf_decipher _ _ _); reflexivity.
    - intros h M; exact M.
    - cbn [option_map unprotect_public]. apply incl_refl.
    - cbn [option_map unprotect_exposed]. apply incl_refl.
    - intros z I. cbn in *. tauto.
    - intros f [F|(d & _ & [])]. exact F.
  Qed.
  Lemma export_storage_keys_rule (R : rand_ok P) (A : aead_ok P) (C : ctr_ok P) (R1 : scrypt_ok P) (R2 : hkdf_ok P) g p s :
    op_rule buf_cells b_bytes [oc cx_cells g; oc buf_cells p] (fst (ctx_export_storage_keys P (option_map cx_value g) (option_map b_bytes p) s))
      (opt_plain (fun x => sk_written (cx_storage x)) (option_map cx_value g) ++
       protect_public P (match option_map cx_value g with Some x => storage_keys_serialize (Some (cx_storage x)) | None => Null end) (option_map b_bytes p) s)
      (protect_exposed P (option_map b_bytes p) s) (T_proto :: T_cipher_result :: buffer_kinds) some_failure (h_ctx_export_storage_keys P g p s).
  Proof.
    destruct g as [g|]; [|absent h_ctx_export_storage_keys]. destruct p as [p|]; [|absent h_ctx_export_storage_keys].
    unfold h_ctx_export_storage_keys. apply touched.
    - eapply op_weaken; [eapply op_same; [exact (protect_rule R A C R1 R2 _ _ _ _ _ p s (write_op sk_cells sk_value _ _ _ _ (hcx_storage g) storage_keys_write))|]| | | | |].
      + unfold ctx_export_storage_keys, mbind, mlift, mres. cbn [option_map cx_value cx_storage]. destruct (storage_keys_serialize _); reflexivity.
      + intros h M. unfold all_in_memory in *. cbn [app oc] in *. inversion M; subst; clear M. parts H1 cx_cells. repeat (apply Forall_cons; [assumption|]). exact H2.
      + cbn [option_map cx_value cx_storage opt_plain]. apply incl_refl.
      + cbn [option_map]. apply incl_refl.
      + intros z I. cbn in *. tauto.
      + auto.
    - intros h M. inversion M; subst; clear M. parts H1 cx_cells. assumption.
  Qed.
  Lemma import_storage_keys_rule (A : aead_len_ok P) (C : ctr_ok P) (R1 : scrypt_ok P) (R2 : hkdf_ok P) e p draft :
    op_rule sk_cells sk_value [oc buf_cells e; oc buf_cells p] (ctx_import_storage_keys P (option_map b_bytes e) (option_map b_bytes p))
      (unprotect_public P (of_message pb_storage_keys_unpack storage_keys_fields no_bytes) (option_map b_bytes e) (option_map b_bytes p)) (unprotect_exposed P (option_map b_bytes e) (option_map b_bytes p))
      [T_cipher_result; T_cipher_key] (unprotect_leak P (option_map b_bytes e) (option_map b_bytes p)) (h_ctx_import_storage_keys P e p draft).
  Proof.
    destruct e as [e|]; [|absent h_ctx_import_storage_keys]. destruct p as [p|]; [|absent h_ctx_import_storage_keys].
    eapply op_weaken; [eapply op_same; [exact (with_opened _ _ _ _ _ _ _ _ _ _ _ _ _ _ (kdf_decipher_rule P A C R1 R2 e p draft) storage_keys_bytes_rule)|]| | | | |].
    - unfold ctx_import_storage_keys. cbn [option_map]. destruct (kdf_decipher _ _ _); reflexivity.
    - intros h M; exact M.
    - cbn [option_map unprotect_public]. apply incl_refl.
    - cbn [option_map unprotect_exposed]. apply incl_refl.
    - intros z I. cbn in *. tauto.
    - intros f [F|(d & _ & [])]. exact F.
  Qed.
  (* local and remote storage *)
  Lemma storage_parts h (g : hcx) rest : all_in_memory h (cx_cells g :: rest) ->
    mem h (hcx_addr g) = Some [] /\ mem h (hsk_addr (hcx_storage g)) = Some [] /\ in_memory h (ck_cells (hsk_local (hcx_storage g))) /\ in_memory h (ck_cells (hsk_remote (hcx_storage g))).
  Proof.
    intros M. inversion M; subst; clear M. parts H1 cx_cells. match goal with G : in_memory _ (sk_cells _) |- _ => parts G sk_cells end. refine (conj _ (conj _ (conj _ _))); assumption.
  Qed.
  Lemma cipher_local_rule (R : rand_ok P) (A : aead_ok P) (C : ctr_ok P) g p s :
    op_rule cr_cells cr_value [oc cx_cells g; oc buf_cells p] (fst (ctx_cipher_local P (option_map cx_value g) (option_map b_bytes p) s))
      (nonce_of P (option_map (fun x => sk_local (cx_storage x)) (option_map cx_value g)) s) [] (encrypt_untested None) never_leaks_op (h_ctx_cipher_local P g p s).
  Proof.
    destruct g as [g|]; [|absent h_ctx_cipher_local]. destruct p as [p|]; [|absent h_ctx_cipher_local]. unfold h_ctx_cipher_local. apply touched; [apply touched|]; [|intros h M; destruct (storage_parts _ _ _ M) as (M1 & M2 & _); assumption..].
    - eapply op_weaken; [exact (aes256_encrypt_rule P R A C (Some p) None (Some (hsk_local (hcx_storage g))) None s)| |apply incl_refl|apply incl_refl|apply incl_refl|intros f F; destruct (no_iv _ _ F)].
      intros h M. destruct (storage_parts _ _ _ M) as (_ & _ & ML & MR). apply Forall_inv_tail in M. apply Forall_inv in M. repeat (apply Forall_cons; [first [assumption|apply in_memory_nil]|]). apply Forall_nil.
  Qed.
  Lemma decipher_local_rule (A : aead_len_ok P) (C : ctr_ok P) g c draft :
    op_rule buf_cells b_bytes [oc cx_cells g; oc cr_cells c] (ctx_decipher_local P (option_map cx_value g) (option_map cr_value c))
      [] [] [] never_leaks_op (h_ctx_decipher_local P g c draft).
  Proof.
    destruct g as [g|]; [|absent h_ctx_decipher_local]. destruct c as [c|]; [|absent h_ctx_decipher_local]. unfold h_ctx_decipher_local. apply touched; [apply touched|]; [|intros h M; destruct (storage_parts _ _ _ M) as (M1 & M2 & _); assumption..].
    - eapply op_weaken; [exact (aes256_decrypt_rule P A C (Some c) None (Some (hsk_local (hcx_storage g))) true draft)| |apply incl_refl|apply incl_refl|apply incl_refl|auto].
      intros h M. destruct (storage_parts _ _ _ M) as (_ & _ & ML & MR). apply Forall_inv_tail in M. apply Forall_inv in M. repeat (apply Forall_cons; [first [assumption|apply in_memory_nil]|]). apply Forall_nil.
  Qed.
  Lemma cipher_remote_rule (R : rand_ok P) (A : aead_ok P) (C : ctr_ok P) g p s :
    op_rule cr_cells cr_value [oc cx_cells g; oc buf_cells p] (fst (ctx_cipher_remote P (option_map cx_value g) (option_map b_bytes p) s))
      (nonce_of P (option_map (fun x => sk_remote (cx_storage x)) (option_map cx_value g)) s) [] (encrypt_untested None) never_leaks_op (h_ctx_cipher_remote P g p s).
  Proof.
    destruct g as [g|]; [|absent h_ctx_cipher_remote]. destruct p as [p|]; [|absent h_ctx_cipher_remote]. unfold h_ctx_cipher_remote. apply touched; [apply touched|]; [|intros h M; destruct (storage_parts _ _ _ M) as (M1 & M2 & _); assumption..].
    - eapply op_weaken; [exact (aes256_encrypt_rule P R A C (Some p) None (Some (hsk_remote (hcx_storage g))) None s)| |apply incl_refl|apply incl_refl|apply incl_refl|intros f F; destruct (no_iv _ _ F)].
      intros h M. destruct (storage_parts _ _ _ M) as (_ & _ & ML & MR). apply Forall_inv_tail in M. apply Forall_inv in M. repeat (apply Forall_cons; [first [assumption|apply in_memory_nil]|]). apply Forall_nil.
  Qed.
  Lemma decipher_remote_rule (A : aead_len_ok P) (C : ctr_ok P) g c draft :
    op_rule buf_cells b_bytes [oc cx_cells g; oc cr_cells c] (ctx_decipher_remote P (option_map cx_value g) (option_map cr_value c))
      [] [] [] never_leaks_op (h_ctx_decipher_remote P g c draft).
  Proof.
    destruct g as [g|]; [|absent h_ctx_decipher_remote]. destruct c as [c|]; [|absent h_ctx_decipher_remote]. unfold h_ctx_decipher_remote. apply touched; [apply touched|]; [|intros h M; destruct (storage_parts _ _ _ M) as (M1 & M2 & _); assumption..].
    - eapply op_weaken; [exact (aes256_decrypt_rule P A C (Some c) None (Some (hsk_remote (hcx_storage g))) true draft)| |apply incl_refl|apply incl_refl|apply incl_refl|auto].
      intros h M. destruct (storage_parts _ _ _ M) as (_ & _ & ML & MR). apply Forall_inv_tail in M. apply Forall_inv in M. repeat (apply Forall_cons; [first [assumption|apply in_memory_nil]|]). apply Forall_nil.
  Qed.
  (* recovery *)
  Lemma recovered_rule (A : aead_len_ok P) (C : ctr_ok P) d k draft :
    op_rule buf_cells b_bytes [buf_cells d; ck_cells k] (rbind (cipher_result_from_buffer (Some (b_bytes d))) (fun c => aes256_decrypt P (Some c) None (Some (ck_value k)) true))
      (sections (b_bytes d)) [] [T_cipher_result] never_leaks_op
      (c <-! h_bytes d ;;
       ciphered_keys <-? h_cipher_result_from_bytes c else hret tt ;;
       decrypt_result <-! h_aes256_decrypt P (Some ciphered_keys) None (Some k) true draft ;;
       h_cipher_result_destroy (Some ciphered_keys) ;;;
       hret decrypt_result)%h.
  Proof.
    begin. rd. wstep. call (parse_op cr_cells cr_value _ _ _ _ _ (b_bytes d) cipher_result_parse_rule).
    - intros V. rewrite V in HB. apply HB. reflexivity.
    - wstep. gone. left. rewrite N. reflexivity.
    - wstep. gone. right. exact F.
    - rewrite V in *. cbn [rbind] in *. assert (KC : keeps_secret secret (cr_plain (cr_value t))) by (refine (keeps_sub _ _ _ K _); exact (cipher_result_sourced (Some (b_bytes d)) _ V)).
      wstep. call (aes256_decrypt_rule P A C (Some t) None (Some k) true draft); cbn [option_map] in *.
      + exact HB.
      + wstep. drop cipher_result_destroy_rule t; [exact KC|]. wstep. gone. left. exact N.
      + wstep. drop cipher_result_destroy_rule t; [exact KC|]. wstep. gone. right. exact F.
      + wstep. drop cipher_result_destroy_rule t; [exact KC|]. wstep. there. exact V0.
  Qed.
  Lemma import_recovery_rule (A : aead_len_ok P) (C : ctr_ok P) d k draft :
    op_rule rk_cells rk_value [oc buf_cells d; oc ck_cells k] (ctx_gen_import_recovery P (option_map b_bytes d) (option_map ck_value k))
      (recovery_public P (option_map b_bytes d) (option_map ck_value k)) [] [T_cipher_result; T_ec_key; T_cipher_key] some_failure
      (h_ctx_gen_import_recovery P d k draft).
  Proof.
    destruct d as [d|]; [|absent h_ctx_gen_import_recovery]. destruct k as [k|]; [|absent h_ctx_gen_import_recovery].
    eapply op_weaken; [eapply op_same; [exact (with_opened _ _ _ _ _ _ _ _ _ _ _ _ _ _ (recovered_rule A C d k draft) (root_keys_bytes_rule P))|]| | | | |].
    - unfold ctx_gen_import_recovery. cbn [option_map]. destruct (cipher_result_from_buffer _) as [c| |]; [|reflexivity..]. cbn [rbind]. destruct (aes256_decrypt _ _ _ _ _); reflexivity.
    - intros h M; exact M.
    - cbn [option_map recovery_public]. apply incl_refl.
    - apply incl_refl.
    - intros z I. cbn in *. tauto.
    - intros f [[]|(b & _ & F)]. exact F.
  Qed.
  Lemma recovery_eq g s : fst (make_recovery P (Some g) s) = match fst (root_keys_export P (Some (gr_root_keys g)) (Some (gr_recovery_key g)) s) with
    | Val r => lift (cipher_result_serialize (Some r)) | Null => Null | UB => UB end.
  Proof. unfold make_recovery, mbind. destruct (root_keys_export _ _ _ _) as [[r| |] s1]; reflexivity. Qed.
  Lemma make_recovery_rule (R : rand_ok P) (A : aead_ok P) (C : ctr_ok P) g s :
    op_rule buf_cells b_bytes [oc gr_cells g] (fst (make_recovery P (option_map gr_value g) s)) (making_public P (option_map gr_value g) s) []
      (encrypt_untested None) never_leaks_op (h_make_recovery P g s).
  Proof.
    destruct g as [g|]; [|absent h_make_recovery]. unfold h_make_recovery. apply touched; [|intros h M; inversion M; subst; clear M; parts H1 gr_cells; assumption].
    cbn [option_map]. eapply op_same; [|symmetry; exact (recovery_eq _ _)]. cbn [gr_value gr_root_keys gr_recovery_key making_public oc].
    begin. parts M0 gr_cells.
    assert (KN : keeps_secret secret (nonce_of P (Some (ck_value (hgr_recovery g))) s)) by (refine (keeps_sub _ _ _ K _); intros z I; apply in_or_app; left; exact I).
    wstep. call (root_keys_export_rule P R A C (Some (hgr_root g)) (Some (hgr_recovery g)) s); cbn [option_map] in *.
    - intros V. rewrite V in HB. apply HB. reflexivity.
    - wstep. gone. left. rewrite N. reflexivity.
    - wstep. gone. right. exact F.
    - rewrite V in *. assert (KC : keeps_secret secret (cr_plain (cr_value t))) by (refine (keeps_sub _ _ _ K _); intros z I; apply in_or_app; right; exact I).
      wstep. call (write_op cr_cells cr_value _ _ _ _ t cipher_result_write).
      + exact HB.
      + wstep. drop cipher_result_destroy_rule t; [exact KC|]. wstep. gone. left. exact N.
      + wstep. drop cipher_result_destroy_rule t; [exact KC|]. wstep. gone. right. exact F.
      + wstep. drop cipher_result_destroy_rule t; [exact KC|]. wstep. there. exact V0.
  Qed.
End storage.
