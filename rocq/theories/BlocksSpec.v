(** Specification of the memory of sessions: programs that give back what they get *)
From Verif Require Import CBase Message Handle Blocks.
From Coq Require Import Permutation.
Local Open Scope Z_scope.

(** Memory in use: every block once *)
Definition mem_ok (m : mem) : Prop := NoDup (m_live m) /\ forall x, In x (m_live m) -> (x < m_next m)%nat.
(** Nothing is left over and nothing else is gone *)
Definition same_blocks (m m' : mem) : Prop := Permutation (m_live m') (m_live m).

(** What a program does with the functions of a client or a server; [given]: for which channels it has an image *)
Inductive bop :=
| CInit (given : list bool) (objects : list rkind)
| CFrame (given : list bool) (objects : list rkind)
| CWait
| SWaitMany
| SWaitOne
| SReplyMany (objects : list rkind)
| SReplyOne (region : rkind)
| Terminate.

(** Its own images and objects, made and released by the functions for it *)
Fixpoint make_images (given : list bool) : mm (list (option img)) :=
  match given with
  | [] => mret []
  | b :: l => i <-- (if b then (i <-- new_image ;; mret (Some i)) else mret None) ;; r <-- make_images l ;; mret (i :: r)
  end.
Definition make_ilist (given : list bool) : mm ilist :=
  l <-- new_ilist (List.length given) ;; i <-- make_images given ;; mret (mkIlist (il_block l) i).
Definition make_region (k : rkind) : mm rgn := x <-- new ;; mret (mkRgn k x).
Fixpoint put_objects (i : nat) (ks : list rkind) (ol : olist) : mm olist :=
  match ks with
  | [] => mret ol
  | k :: ks => r <-- make_region k ;; ol <-- set_olist ol i (Some r) ;; release_region (Some r) ;;; put_objects (S i) ks ol
  end.
Definition make_olist (ks : list rkind) : mm olist := ol <-- new_olist (List.length ks) ;; put_objects 0 ks ol.
Definition give_ilist (l : ilist) : mm unit := clear_ilist l ;;; release_ilist l.
Definition give {A} (f : A -> mm unit) (o : option A) : mm unit := match o with Some a => f a | None => mret tt end.

(** One call.  A server waits only while trax_is_alive *)
Definition call (op : bop) (h : conn) (l : list amsg) : mm (conn * list amsg) :=
  match op with
  | CInit given ks =>
      il <-- make_ilist given ;; ol <-- make_olist ks ;; r <-- initialize h il ol ;; give_ilist il ;;; release_olist ol ;;; mret (snd r, l)
  | CFrame given ks =>
      il <-- make_ilist given ;; ol <-- make_olist ks ;; r <-- frame h il (Some ol) ;; give_ilist il ;;; release_olist ol ;;; mret (snd r, l)
  | CWait => r <-- await_states h l ;; let '(_, h, ol, l) := r in give release_olist ol ;;; mret (h, l)
  | SWaitMany =>
      if c_dead h then mret (h, l)
      else r <-- wait_mot h None l ;; let '(_, h, il, ol, l) := r in give give_ilist il ;;; give release_olist ol ;;; mret (h, l)
  | SWaitOne =>
      r <-- wait_sot h None None l ;; let '(_, h, il, rg, l) := r in give give_ilist il ;;; give (fun r => release_region (Some r)) rg ;;; mret (h, l)
  | SReplyMany ks => ol <-- make_olist ks ;; r <-- reply_mot h ol ;; release_olist ol ;;; mret (snd r, l)
  | SReplyOne k => g <-- make_region k ;; p <-- new ;; r <-- reply_sot h g (Some p) ;; release_region (Some g) ;;; free p ;;; mret (snd r, l)
  | Terminate => h <-- end_session h ;; mret (h, l)
  end.
Fixpoint calls (ops : list bop) (h : conn) (l : list amsg) : mm conn :=
  match ops with [] => mret h | op :: ops => r <-- call op h l ;; calls ops (fst r) (snd r) end.
(** A client, from the stream to trax_cleanup *)
Definition client_program (v4 multi : bool) (channels : list bool) (regions : list rkind) (g : hello) (ops : list bop) (l : list amsg) : mm unit :=
  s <-- new ;; c <-- setup_client s v4 multi channels regions g ;;
  match c with None => mret tt | Some h => h <-- calls ops h l ;; cleanup h end.
(** A server *)
Definition server_program (v4 multi : bool) (channels : list bool) (regions : list rkind) (strings : list bool) (ops : list bop) (l : list amsg) : mm unit :=
  d <-- new_mdata strings ;; s <-- new ;; h <-- setup_server d s v4 multi channels regions ;; release_mdata d ;;;
  h <-- calls ops h l ;; cleanup h.

(** Who may call what *)
Definition for_client (op : bop) : bool := match op with CInit _ _ | CFrame _ _ | CWait | Terminate => true | _ => false end.
Definition for_server (op : bop) : bool := match op with SWaitMany | SWaitOne | SReplyMany _ | SReplyOne _ | Terminate => true | _ => false end.
(** Arguments that are not the empty text *)
Definition arg_text (x : arg) : Prop := a_region x <> PNull.
Definition msg_text (g : amsg) : Prop := Forall arg_text (g_args g).
(** Not the message that asks for a new start *)
Definition no_reset (g : amsg) : Prop := ~ (g_code g = TRAX_INITIALIZE /\ g_args g = []).
(** Objects that can be sent: not special; of an announced type, or convertible other than from a polygon to a mask *)
Definition sent_kind (regions : list rkind) (k : rkind) : Prop :=
  k <> KSpecial /\ (exists r, In r regions /\ r <> KSpecial) /\ (In k regions \/ ~ In KMask regions \/ k = KRect).
Definition op_ok (regions : list rkind) (op : bop) : Prop :=
  match op with CInit _ ks | CFrame _ ks => Forall (sent_kind regions) ks | _ => True end.

Definition sample_ops : list bop :=
  [CWait; CInit [true; false; false] [KRect]; CWait; CFrame [true; true; false] [KMask; KRect]; CInit [] [KRect]; CWait; CFrame [true] []; CWait;
   Terminate; CWait; CFrame [true; false; false] []].
Definition state_message (p : parsed) : amsg := mkMsg TRAX_STATE [mkArg None p].
Definition sample_states : list amsg :=
  [state_message (PRegion KPoly); state_message (PRegion KRect); mkMsg TRAX_FRAME []; state_message PFail; mkMsg TRAX_QUIT []].
Definition image_message (ok : bool) : amsg := mkMsg TRAX_FRAME [mkArg (Some ok) PFail; mkArg (Some true) PFail].
Definition object_message (p : parsed) : amsg := mkMsg TRAX_INITIALIZE [mkArg None p].
Definition sample_serving : list bop :=
  [SReplyMany [KRect]; SWaitMany; SReplyMany [KRect; KMask]; SWaitMany; SWaitMany; SWaitOne; SReplyOne KPoly; SWaitMany; Terminate; SWaitMany; SReplyMany []].
Definition sample_requests : list amsg :=
  [object_message (PRegion KRect); object_message (PRegion KMask); image_message true; image_message false; object_message (PRegion KPoly);
   image_message true; mkMsg TRAX_QUIT [mkArg None PFail]; mkMsg TRAX_QUIT []].
Definition reset_message : amsg := mkMsg TRAX_INITIALIZE [].
(** Blocks that are left over *)
Definition left_over (n : nat) (m m' : mem) : Prop := exists l, List.length l = n /\ Permutation (m_live m') (l ++ m_live m).
(** A server that ends the session, then waits [n] times more, and cleans up *)
Fixpoint waits (n : nat) (h : conn) : mm conn :=
  match n with O => mret h | S n => r <-- wait_mot h None [] ;; let '(_, h, il, ol, _) := r in give give_ilist il ;;; give release_olist ol ;;; waits n h end.
Definition late_server (n : nat) : mm unit :=
  d <-- new_mdata [] ;; s <-- new ;; h <-- setup_server d s true true [true] [KRect] ;; release_mdata d ;;;
  h <-- end_session h ;; h <-- waits n h ;; cleanup h.
(** No quit message between an object and its frame *)
Fixpoint settled (pending : bool) (l : list amsg) : Prop :=
  match l with
  | [] => True
  | g :: l =>
      if g_code g =? TRAX_INITIALIZE then settled true l
      else if g_code g =? TRAX_FRAME then settled false l
      else if g_code g =? TRAX_QUIT then pending = false /\ settled pending l
      else settled pending l
  end.
