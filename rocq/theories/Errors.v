(** Model of the error texts of a handle: which text set_error gets in which call (src/trax.c), and what it makes of it.
    Handle.v has the calls themselves with a flag instead of the text *)
From Verif Require Import CBase Num Region Image Formats Props Message Handle.
Local Open Scope Z_scope.

(** What a variadic function finds as an argument: an int, or a va_list *)
Inductive cell := AInt (z : Z) | AList.
(** vsnprintf with %d only; reading a va_list as an int is undefined, as is any other conversion here *)
Fixpoint formatted (f : list N) (cells : list cell) : outcome (list N) :=
  match f with
  | [] => Ok []
  | c :: f =>
      if (c =? 37)%N then
        match f with
        | d :: f =>
            if (d =? 100)%N then
              match cells with AInt z :: cells => t <- formatted f cells ;; Ok (print_Z z ++ t) | _ => UB end
            else UB
        | [] => UB
        end
      else t <- formatted f cells ;; Ok (c :: t)
  end.
(** A call of set_error: the format and the arguments *)
Definition report := (list N * list Z)%type.
(** src/trax.c:539-559 set_error: the va_list [args] of the arguments is itself passed as the argument of the variadic buffer_append (src/buffer.h:75) *)
Definition error_text (r : report) : outcome (list N) := formatted (fst r) [AList].

Definition plain_report (s : string) : option report := Some (str s, []).
(** src/trax.c:901-909 and 1012-1020: the first announced channel without an image *)
Fixpoint missing_report (channels : Z) (ids : list Z) (images : image_list) : option report :=
  match ids, images with
  | id :: ids, im :: images =>
      if supports channels id then match im with None => Some (str "Required image channel not provided (ID: %d)", [id]) | Some _ => missing_report channels ids images end
      else missing_report channels ids images
  | _, _ => None
  end.
Definition multi (h : handle) : bool := match md_flags (h_meta h) with Some f => supports f TRAX_METADATA_MULTI_OBJECT | None => false end.
(** src/trax.c:947-1030 trax_client_frame *)
Definition frame_report (h : handle) (images : image_list) (n : Z) : option report :=
  if negb (alive h) then plain_report "Client not alive"
  else if is_version_4 h then
    if (1 <? h_objects h + n) && negb (multi h) then plain_report "Invalid mode" else missing_report (md_channels (h_meta h)) channel_ids images
  else if 0 <? n then plain_report "Unable to add new objects" else missing_report (md_channels (h_meta h)) channel_ids images.
(** src/trax.c:852-945 trax_client_initialize *)
Definition initialize_report (h : handle) (images : image_list) (n : Z) : option report :=
  if negb (alive h) then plain_report "Client not alive"
  else if n <? 1 then plain_report "At least one object required"
  else if negb (multi h) && (1 <? n) then plain_report "Too many objects given"
  else if is_version_4 h then frame_report (if 0 <? h_objects h then set_objects h 0 else h) images n
  else missing_report (md_channels (h_meta h)) channel_ids images.
(** src/trax.c:1356-1389 trax_server_reply_sot *)
Definition reply_sot_report (h : handle) : option report :=
  if negb (alive h) then plain_report "Server not alive" else if is_version_4 h then plain_report "Invalid mode" else None.
(** src/trax.c:1391-1430 trax_server_reply_mot *)
Definition reply_mot_report (h : handle) (n : Z) : option report :=
  if negb (alive h) then plain_report "Server not alive"
  else if negb (multi h) && negb (n =? 1) then plain_report "Invalid mode"
  else if negb (n =? h_objects h) then plain_report "Invalid object count"
  else None.
(** src/trax.c:1104, 1130, 1144, 1234, 1256, 1289: a message with the wrong number of arguments *)
Definition arguments_report (found wanted : Z) : report := (str "Protocol error, illegal argument number %d != %d", [found; wanted]).
