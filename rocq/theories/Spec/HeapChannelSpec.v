(* What sending and receiving data over an active transport owes its caller in terms of memory,
   whichever allocations fail. *)
From Verif.Base Require Import Bytes Monad.
From Verif.Model Require Import Buffer Cipher Prims Engine Stream TransportPacket Transport Heap HeapObjects HeapMessages HeapParse HeapWrite HeapEngine HeapStream HeapChannel.
From Verif.Spec Require Import HeapSpec HeapObjectSpec CopySpec HeapParseSpec HeapEngineSpec HeapProtocolSpec HeapContextSpec HeapStreamSpec StreamSpec.
Local Open Scope N_scope.

(* --- sending --- *)
(* the bytes for the network and the stream afterwards *)
Definition sends_to (P : prims) (tx : stream_ctx) (data : bytes) : res bytes * stream_ctx :=
  (rbind (fst (encode_pkt P tx data)) (fun p => lift (tpacket_serialize p)), snd (encode_pkt P tx data)).
(* the header of the next packet and what it encrypts to *)
Definition next_number (tx : stream_ctx) : N := wadd64 (sc_last tx) 1.
Definition next_header (tx : stream_ctx) : option bytes := tmeta_serialize (meta_data (next_number tx) MAC_AUTH_CIPHER).
Definition next_text (P : prims) (tx : stream_ctx) (data : bytes) : res cipher_result := fst (stream_ctx_encode P tx (Some data) (next_header tx) (next_number tx)).
(* after a failure the stream is as it was, has used up a nonce, or is where sending leaves it *)
Definition send_right (P : prims) (tx : hsc) (data : bytes) : schedule -> option hbuf * hsc -> Prop :=
  advances b_bytes tx (sends_to P (sc_value tx) data) [sc_value tx; nonce_spent P (sc_value tx); snd (sends_to P (sc_value tx) data)].
Definition send_ok (P : prims) (tx : hsc) (data : bytes) : option hbuf * hsc -> Prop := advances_ok b_bytes tx (sends_to P (sc_value tx) data).
(* what may be left readable: the user data of a key that is replaced, the nonce, the header, the ciphertext *)
Definition send_public (P : prims) (tx : stream_ctx) (data : bytes) : list bytes :=
  user_data tx ++ next_nonce P tx ++ opt_list (next_header tx) ++ plain_of cr_plain (next_text P tx data) ++
  plain_of (fun r => opt_list (cipher_result_serialize (Some r))) (next_text P tx data).
Definition send_kinds : list ctype := [T_cipher_key; T_cipher_result].

(* --- receiving --- *)
(* the data for the user and the stream afterwards *)
Definition receives_to (P : prims) (rx : stream_ctx) (b : bytes) (pad : N) : res bytes * stream_ctx :=
  match tpacket_create_from_buffer (Some b) with
  | Val p => decode_pkt P rx p pad
  | Null => (Null, rx)
  | UB => (UB, rx)
  end.
Definition receive_right (P : prims) (rx : hsc) (b : bytes) (pad : N) : schedule -> option hbuf * hsc -> Prop :=
  advances b_bytes rx (receives_to P (sc_value rx) b pad) [sc_value rx; snd (receives_to P (sc_value rx) b pad)].
Definition receive_ok (P : prims) (rx : hsc) (b : bytes) (pad : N) : option hbuf * hsc -> Prop := advances_ok b_bytes rx (receives_to P (sc_value rx) b pad).
(* what may be left readable: the user data of a key that is replaced and parts of what came in *)
Definition came_in (b : bytes) : list bytes :=
  (b :: sections b) ++ plain_of (fun p => [tp_body p] ++ sections (tp_body p) ++ opt_list (tp_mac p) ++ opt_list (tp_network p) ++ opt_list (tmeta_serialize (tp_meta p)) ++
    plain_of cr_plain (cipher_result_from_buffer (Some (tp_body p)))) (tpacket_create_from_buffer (Some b)).
Definition receive_public (rx : stream_ctx) (b : bytes) : list bytes := user_data rx ++ came_in b.
Definition receive_kinds : list ctype := [T_cipher_key; T_cipher_result].

(* --- a whole exchange --- *)
(* a stream that starts with the key [k] and has carried nothing yet *)
Definition new_stream (k : stream_key) (d : direction) (c : stream_ctx) : Prop :=
  good_stream_key k /\ usable_stream c /\ sc_key c = k /\ sc_last c = 0 /\ sc_dir c = d.
(* what went over the network, if anything, for each piece of data that was to be sent.  Each call has
   a schedule of failures of its own, and whatever happened to the rest of the memory in between. *)
Inductive channel_sent (P : prims) (tx0 : hsc) : list (option bytes * bytes) -> hsc -> Prop :=
| sent_nothing : channel_sent P tx0 [] tx0
| sent_next l tx data fails h answer tx' h' : channel_sent P tx0 l tx ->
    heap_ok h -> in_memory h (sc_cells tx) -> all_in_memory h [buf_cells data] -> separate [buf_cells data] (sc_cells tx) ->
    h_channel_send P tx data fails h = Some ((answer, tx'), h') -> channel_sent P tx0 (l ++ [(option_map b_bytes answer, b_bytes data)])%list tx'.
(* what came in, and what was handed to the user for it, if anything *)
Inductive channel_received (P : prims) (rx0 : hsc) : list (bytes * option bytes) -> hsc -> Prop :=
| received_nothing : channel_received P rx0 [] rx0
| received_next l rx b pad draft fails h answer rx' h' : channel_received P rx0 l rx ->
    heap_ok h -> in_memory h (sc_cells rx) -> all_in_memory h [buf_cells b] -> separate [buf_cells b] (sc_cells rx) ->
    h_channel_receive P rx b pad draft fails h = Some ((answer, rx'), h') -> channel_received P rx0 (l ++ [(b_bytes b, option_map b_bytes answer)])%list rx'.
