(** C102: memory of sessions *)
From Verif Require Import CBase Message Handle Blocks BlocksSpec BlocksProofs.
From Coq Require Import Permutation.
Local Open Scope Z_scope.

(** C102, clients, whatever they call and whatever arrives, as long as the hello message has its texts, the objects can be sent without
    turning a polygon into a mask, and no state is the empty text: no block is used or freed that is not in use, and in the end exactly
    the blocks of the beginning are in use.  Missing: see the refutations below *)
Theorem client_memory_partial v4 multi channels regions v2 chans strings ops l m : mem_ok m ->
  Forall (fun op => for_client op = true) ops -> Forall (op_ok regions) ops -> Forall msg_text l -> (v2 = true -> chans = true) ->
  exists m', client_program v4 multi channels regions (Hello v2 true true chans strings) ops l m = Ok (tt, m') /\ same_blocks m m'.
Proof. exact (client_memory v4 multi channels regions v2 chans strings ops l m). Qed.
Print Assumptions client_memory_partial.
Example client_memory_ex : mem_ok (mkMem 3 [2; 0])%nat /\ Forall (fun op => for_client op = true) sample_ops /\
  Forall (op_ok [KRect; KMask]) sample_ops /\ Forall msg_text sample_states.
Proof. exact sample_client. Qed.
(** The same for servers that wait only while alive, unless a message asks for a new start *)
Theorem server_memory_partial v4 multi channels regions strings ops l m : mem_ok m -> Forall (fun op => for_server op = true) ops ->
  Forall msg_text l -> Forall no_reset l ->
  exists m', server_program v4 multi channels regions strings ops l m = Ok (tt, m') /\ same_blocks m m'.
Proof. exact (server_memory v4 multi channels regions strings ops l m). Qed.
Print Assumptions server_memory_partial.
Example server_memory_ex : mem_ok (mkMem 3 [2; 0])%nat /\ Forall (fun op => for_server op = true) sample_serving /\
  Forall msg_text sample_requests /\ Forall no_reset sample_requests.
Proof. exact sample_server. Qed.

(** Each message that asks for a new start costs the server two blocks *)
Theorem memory_reset_refuted n m : mem_ok m ->
  exists m', server_program true true [true] [KRect] [] [SWaitMany] (repeat reset_message n) m = Ok (tt, m') /\ left_over (2 * n) m m'.
Proof. exact (reset_leak n m). Qed.
Print Assumptions memory_reset_refuted.
(** So does each wait after the end of the session *)
Theorem memory_late_wait_refuted n m : mem_ok m -> exists m', late_server n m = Ok (tt, m') /\ left_over (2 * n) m m'.
Proof. exact (late_leak n m). Qed.
Print Assumptions memory_late_wait_refuted.
(** A client that is not greeted loses its stream *)
Theorem memory_greeting_refuted : exists m', client_program true true [true] [KRect] NoHello [] [] (mkMem 0 []) = Ok (tt, m') /\ left_over 1 (mkMem 0 []) m'.
Proof. exact greeting_leak. Qed.
Print Assumptions memory_greeting_refuted.
(** A polygon sent to a tracker that takes only masks costs one block *)
Theorem memory_polygon_refuted : exists m', client_program true true [true] [KMask] (Hello true true true true []) [CInit [true] [KPoly]] [] (mkMem 0 []) = Ok (tt, m') /\
  left_over 1 (mkMem 0 []) m'.
Proof. exact polygon_leak. Qed.
Print Assumptions memory_polygon_refuted.
(** An empty text for a region, or a hello message without its texts, is undefined behaviour *)
Theorem memory_empty_text_refuted :
  client_program true true [true] [KRect] (Hello true true true true []) [CInit [true] [KRect]; CWait] [state_message PNull] (mkMem 0 []) = UB /\
  server_program true true [true; true] [KRect] [] [SWaitMany] [object_message PNull; image_message true] (mkMem 0 []) = UB /\
  client_program true true [true] [KRect] (Hello true false true true []) [] [] (mkMem 0 []) = UB /\
  client_program true true [true] [KRect] (Hello true true false true []) [] [] (mkMem 0 []) = UB /\
  client_program true true [true] [KRect] (Hello true true true false []) [] [] (mkMem 0 []) = UB.
Proof. exact empty_text. Qed.
Print Assumptions memory_empty_text_refuted.
