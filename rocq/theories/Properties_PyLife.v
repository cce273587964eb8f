(** C103: memory of Python programs *)
From Verif Require Import CBase Message Handle Blocks BlocksSpec PyLife PyLifeSpec PyLifeProofs.
Local Open Scope Z_scope.

(** C103, clients: whatever objects a program makes, sends, receives and loses, in whatever order they are collected, and whatever arrives:
    no memory is used after it is freed, and when everything is collected exactly the blocks of the beginning are in use.  Missing:
    Properties.get, reasons of the tracker, loggers without quit (see the refutations below), and what C102 leaves out *)
Theorem python_client_memory_partial logger v4 multi channels regions v2 chans strings ops l m : mem_ok m ->
  Forall no_get ops -> quits logger ops -> Forall msg_text l -> (v2 = true -> chans = true) ->
  exists m', prun (client_init logger false v4 multi channels regions (Hello v2 true true chans strings)) ops l m = Ok (tt, m') /\ same_blocks m m'.
Proof. exact (python_client logger v4 multi channels regions v2 chans strings ops l m). Qed.
Print Assumptions python_client_memory_partial.
(** The same for trackers, unless quit comes between an object and its frame *)
Theorem python_server_memory_partial logger v4 multi channels regions strings ops l m : mem_ok m ->
  Forall no_get ops -> quits logger ops -> Forall msg_text l -> Forall no_reset l -> settled false l ->
  exists m', prun (server_init logger false v4 multi channels regions strings) ops l m = Ok (tt, m') /\ same_blocks m m'.
Proof. exact (python_server logger v4 multi channels regions strings ops l m). Qed.
Print Assumptions python_server_memory_partial.
Example python_memory_ex : mem_ok (mkMem 3 [2; 0])%nat /\ Forall no_get sample_client_ops /\ Forall no_get sample_server_ops /\
  quits true sample_client_ops /\ quits true sample_server_ops /\
  Forall msg_text sample_answers /\ Forall msg_text sample_requests /\ Forall no_reset sample_requests /\ settled false sample_requests.
Proof. exact sample_python. Qed.

(** Each Properties.get of a key that is there costs a block *)
Theorem python_get_refuted n m : mem_ok m ->
  exists m', prun (server_init false false true true [true] [KRect] []) (MakeProps :: repeat (Get 0 true) n) [] m = Ok (tt, m') /\ left_over n m m'.
Proof. exact (get_leak n m). Qed.
Print Assumptions python_get_refuted.
(** A Server whose metadata has a key that is no string; quit after two objects that wait for their frame; a Client whose logger is interrupted
    in the constructor; a Client that is told a reason *)
Theorem python_memory_refuted :
  (exists m', prun (server_init true true true true [true] [KRect] [true]) [] [] (mkMem 0 []) = Ok (tt, m') /\ left_over 3 (mkMem 0 []) m') /\
  (exists m', prun (server_init false false true true [true] [KRect] []) [Wait] [object_message (PRegion KRect); object_message (PRegion KRect); mkMsg TRAX_QUIT []] (mkMem 0 []) = Ok (tt, m') /\
     left_over 7 (mkMem 0 []) m') /\
  (exists m', prun (client_init true true true true [true] [KRect] greeting) [] [] (mkMem 0 []) = Ok (tt, m') /\ left_over 5 (mkMem 0 []) m') /\
  (exists m', prun (client_init false false true true [true] [KRect] greeting) [MakeImage; MakeRegion KRect; Send true true [Some 0%nat] [1%nat]] [mkMsg TRAX_QUIT []] (mkMem 0 []) = Ok (tt, m') /\
     left_over 1 (mkMem 0 []) m').
Proof. exact python_leaks. Qed.
Print Assumptions python_memory_refuted.
(** A Client that is not greeted leaves its stream, and nothing else *)
Theorem python_greeting_refuted logger interrupted v4 multi channels regions g ops l m : mem_ok m -> g = NoHello \/ g = HelloArgs ->
  exists m', prun (client_init logger interrupted v4 multi channels regions g) ops l m = Ok (tt, m') /\ left_over 1 m m'.
Proof. exact (python_no_greeting logger interrupted v4 multi channels regions g ops l m). Qed.
Print Assumptions python_greeting_refuted.
(** Sessions with a logger that are collected without quit call the logger after it is gone *)
Theorem python_logger_refuted : prun (server_init true false true true [true] [KRect] []) [] [] (mkMem 0 []) = UB /\
  prun (client_init true false true true [true] [KRect] greeting) [] [] (mkMem 0 []) = UB.
Proof. exact logger_gone. Qed.
Print Assumptions python_logger_refuted.
