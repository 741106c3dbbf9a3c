(* What sending a packet owes its caller in terms of memory, whichever allocations fail. *)
From Verif.Base Require Import Bytes Monad.
From Verif.Model Require Import Buffer Cipher Ecdsa Kdf Prims Engine Keys Identity Node EcdhCipher Exchange Payload Packet Ctx Heap HeapObjects HeapMessages HeapParse.
From Verif.Spec Require Import HeapSpec HeapObjectSpec CopySpec HeapParseSpec HeapWriteSpec HeapEngineSpec HeapProtocolSpec HeapGenerateSpec HeapContextSpec BufferSpec.
Local Open Scope N_scope.
Local Open Scope m_scope.

(* --- the recipients --- *)
Definition recipients_cells (l : list (option hnd)) : list cell := flat_map (cells_opt nd_cells) l.
Definition recipients_value (l : list (option hnd)) : list (option node) := map (option_map nd_value) l.
(* The nodes [l] were looked at one after the other up to the first that is not good; [b]: all of them
   are.  Each that was looked at is judged on its own, the others are as they were. *)
Fixpoint recipients_after (P : prims) (fails : schedule) (l l' : list (option hnd)) (b : bool) : Prop :=
  match l, l' with
  | [], [] => b = true
  | None :: r, None :: r' => b = false /\ r' = r
  | Some n :: r, Some n' :: r' =>
      exists v, node_after P n fails (v, n') /\ if v then recipients_after P fails r r' b else b = false /\ r' = r
  | _, _ => False
  end.
(* a recipient the library may send to: its chain and its key are signed, or a status of its own says so *)
Definition trusted (P : prims) (n : node) : Prop :=
  chain_passes P (nd_chain n) /\ keypair_verify_owner P (nd_keypair n) (Some (ch_node (nd_chain n))) = true \/
  node_has_valid_cache P n = true /\ nd_status n = S_VALID.
Definition all_trusted (P : prims) (l : list (option node)) : Prop := Forall (fun o => exists n, o = Some n /\ trusted P n) l.
(* the array of recipients stays where it is *)
Definition same_array (a a' : harr hnd) : Prop := harr_addr a' = harr_addr a /\ harr_store a' = harr_store a.
(* the answer's blocks and the recipients' *)
Definition with_recipients {T} (cells : T -> list cell) (a : option T * option (harr hnd)) : list cell :=
  (cells_opt cells (fst a) ++ cells_opt (arr_cells nd_cells) (snd a))%list.

(* --- the packet --- *)
(* the packet for recipients that are all good *)
Definition packet_to (P : prims) (header_key payload_key : cipher_key) (exchange_key : ec_key) (p : payload) (recipients : list (option node)) (sender : chain) (version : N) : M packet :=
  if N.of_nat (length recipients) =? 0 then mres Null
  else if negb (exchange_array_ok (N.of_nat (length recipients))) then mres Null
  else
    exchanges <-- make_exchanges P sender (Some exchange_key) payload_key version recipients ;;
    enc_header <-- exchange_set_encrypt P (Some {| xs_sender := exchange_key; xs_items := exchanges |}) (Some header_key) ;;
    enc_payload <-- payload_encrypt P (Some p) (Some payload_key) ;;
    packet_create_with_components P (Some enc_header) (Some enc_payload) (Some (id_key (ch_node sender))) version.
(* after a failure there may be no packet; there is one only if every recipient was found good *)
Definition sends {T V} (value : T -> V) (P : prims) (recipients : harr hnd) (pure : res V) (fails : schedule) (a : option T * option (harr hnd)) : Prop :=
  exists rs' b, snd a = Some rs' /\ same_array recipients rs' /\ recipients_after P fails (harr_items recipients) (harr_items rs') b /\
  match fst a with
  | Some t => b = true /\ pure = Val (value t)
  | None => b = false \/ pure = Null \/ some_failure fails
  end.
(* when nothing fails *)
Definition sends_ok {T V} (value : T -> V) (P : prims) (recipients : harr hnd) (pure : res V) (a : option T * option (harr hnd)) : Prop :=
  makes_ok value pure (fst a) /\
  exists rs', snd a = Some rs' /\ same_array recipients rs' /\
    recipients_value (harr_items rs') = snd (recipients_validate P (recipients_value (harr_items recipients))).
(* the number of items of an array is a uint32_t (array.h:51) *)
Definition countable (a : harr hnd) : Prop := N.of_nat (length (harr_items a)) < 2 ^ 32.
(* a payload whose encryption is within the size limit of the library *)
Definition sendable (p : payload) : Prop := forall b, payload_serialize (Some p) = Some b -> blen b + 29 <= library_limit.

(* --- what may be left readable --- *)
Definition recipients_strings (P : prims) (l : list (option node)) : list bytes := flat_map (opt_plain (node_strings P)) l.
(* the exchanges: public keys, what names the parties, nonces and ciphertexts *)
Fixpoint exchanges_public (P : prims) (sender : chain) (ek : ec_key) (pk : cipher_key) (version : N) (l : list (option node)) (s : nat) : list bytes :=
  match l with
  | [] => []
  | n :: r => (wrap_public P (Some sender) n (Some ek) (Some pk) None version s ++
               plain_of kx_plain (fst (exchange_create_with_packet_key P (Some sender) n (Some ek) (Some pk) None version s)) ++
               exchanges_public P sender ek pk version r (S s))%list
  end.
(* after a failure: the keys agreed on with the recipients *)
Definition exchanges_exposed (P : prims) (sender : chain) (ek : ec_key) (pk : cipher_key) (version : N) (l : list (option node)) : list bytes :=
  flat_map (fun n => wrap_exposed P (Some sender) n (Some ek) (Some pk) None version) l.
(* the exchanges as they are written, nonces, ciphertexts, the packet *)
Definition sealing_public (P : prims) (hk pk : cipher_key) (ek : ec_key) (p : payload) (sender : chain) (version : N) (items : list (option key_exchange)) (s : nat) : list bytes :=
  let set := {| xs_sender := ek; xs_items := items |} in
  (xs_written set ++ nonce_of P (Some hk) s ++
   plain_of (fun eh => cr_plain eh ++ nonce_of P (Some pk) (S s) ++
     plain_of (fun ep => cr_plain ep ++ packet_public P (Some eh) (Some ep) (Some (id_key (ch_node sender))) version (S (S s))) (fst (payload_encrypt P (Some p) (Some pk) (S s))))
     (fst (exchange_set_encrypt P (Some set) (Some hk) s)))%list.
Definition sending_public (P : prims) (hk pk : cipher_key) (ek : ec_key) (p : payload) (recipients : list (option node)) (sender : chain) (version : N) (s : nat) : list bytes :=
  (recipients_strings P recipients ++ exchanges_public P sender ek pk version recipients s ++
   plain_of (fun items => sealing_public P hk pk ek p sender version items (length recipients + s))
     (fst (make_exchanges P sender (Some ek) pk version recipients s)))%list.
Definition sending_kinds : list ctype :=
  [T_openssl; T_buffer; T_data; T_ec_key; T_cipher_key; T_key_exchange; T_cipher_result; T_proto; T_ecdsa_result].

(* --- with the keys a context draws --- *)
Definition with_new_keys {A} (P : prims) (s : nat) (none : A) (f : cipher_key -> ec_key -> A) : A :=
  match fst (cipher_key_random P default_cipher s) with
  | Val k => match fst (ec_rand_key P P521 (S s)) with Val e => f k e | _ => none end
  | _ => none
  end.
(* what a context sends to recipients that are all good *)
Definition encoded_to (P : prims) (c : ctx) (p : payload) (recipients : list (option node)) (s : nat) : res encoder_result :=
  with_new_keys P s Null (fun k e =>
    match fst (packet_to P (cx_header_key c) k e p recipients (cx_chain c) (cx_version c) (S (S s))) with
    | Val t => Val {| en_key := k; en_packet := t |}
    | Null => Null
    | UB => UB
    end).
(* without new keys the recipients are not looked at *)
Definition no_keys {T} (recipients : harr hnd) (a : option T * option (harr hnd)) : Prop := fst a = None /\ snd a = Some recipients.
Definition encodes_right (P : prims) (c : ctx) (p : payload) (recipients : harr hnd) (s : nat) (fails : schedule) (a : option hen * option (harr hnd)) : Prop :=
  with_new_keys P s (no_keys recipients a) (fun _ _ =>
    sends en_value P recipients (encoded_to P c p (recipients_value (harr_items recipients)) s) fails a \/ no_keys recipients a /\ some_failure fails).
Definition encodes_ok (P : prims) (c : ctx) (p : payload) (recipients : harr hnd) (s : nat) (a : option hen * option (harr hnd)) : Prop :=
  with_new_keys P s (no_keys recipients a) (fun _ _ =>
    sends_ok en_value P recipients (fst (ctx_encode_packet P (Some c) (Some p) (Some (recipients_value (harr_items recipients))) s)) a).
Definition encoding_public (P : prims) (c : ctx) (p : payload) (recipients : list (option node)) (s : nat) : list bytes :=
  with_new_keys P s [] (fun k e =>
    (sending_public P (cx_header_key c) k e p recipients (cx_chain c) (cx_version c) (S (S s)) ++
     plain_of pt_plain (fst (packet_to P (cx_header_key c) k e p recipients (cx_chain c) (cx_version c) (S (S s)))))%list).
Definition encoding_exposed (P : prims) (c : ctx) (recipients : list (option node)) (s : nat) : list bytes :=
  with_new_keys P s [] (fun k e => exchanges_exposed P (cx_chain c) e k (cx_version c) recipients).
