(** Specification for C130: what the other side can send that does harm. *)
From Verif Require Import CBase Num NumSpec Props PropsSpec PropsNum Message MessageSpec Region RegionSpec RegionSafeSpec Formats Handle SessionSpec HistorySpec.
Local Open Scope Z_scope.

(** A message that comes in: one of those that are read from the stream, whatever its bytes are *)
Definition incoming (h : handle) (r : read_result) : Prop := exists n rs st, read_many n (h_type h) (h_in h) = Ok (rs, st) /\ In r rs.

(** A server for several objects goes on to the next message after these.  All input can be read and ends after one of them. *)
Definition passed_over (t : option mtype) : Prop := t = Some MInitialize \/ t = Some MHello \/ t = Some MState.
Definition stuck (h : handle) : Prop :=
  exists n rs t st, read_many n (h_type h) (h_in h) = Ok (rs, st) /\ t = last (map rr_type rs) (h_type h) /\ passed_over t /\ stream_bytes st = [].

(** Texts of masks without pixels, or with a negative size *)
Definition flat_mask (t : list N) : Prop :=
  exists d x y w h runs, splits t (Some Mask) d /\ nonempty_data d /\ all_numbers d /\ numbers d = x :: y :: w :: h :: runs /\ runs <> [] /\
    (whole w <= 0 \/ whole h <= 0).
(** Texts of images that cannot be decoded without harm (C55) *)
Definition dangerous_image (t : list N) : Prop :=
  (exists r, t = str "image:" ++ r) \/
  (exists type b, t = str "data:" ++ type ++ str ";" ++ b /\ (b = [] \/ (List.length b mod 4 <> 0)%nat)).
(** A state or an object with one of these texts, and images with one of these *)
Definition dangerous_object (t : mtype) (r : read_result) : Prop :=
  rr_type r = Some t /\ exists a, rr_args r = [a] /\ (~ harmless a \/ flat_mask a).
Definition dangerous_request (t : mtype) (r : read_result) : Prop :=
  rr_type r = Some t /\ ((exists a, In a (rr_args r) /\ dangerous_image a) \/ (t = MInitialize /\ exists a, In a (rr_args r) /\ ~ harmless a)).

(** Numbers whose integer part is no int, and properties with such a number or without any text *)
Definition truncated (m : positive) (e : Z) : Z := (Z.pos m * 2 ^ Z.max 0 e) / 2 ^ Z.max 0 (- e).
Definition beyond_int (x : spec_float) : Prop :=
  match x with
  | S754_zero _ => False
  | S754_finite s m e => let z := if s then - truncated m e else truncated m e in z < INT_MIN \/ INT_MAX < z
  | _ => True
  end.
Definition wild_integer (p : props) (key : list N) : Prop :=
  exists v, props_get p key = Ok (Some v) /\ (v = [] \/ exists d rest, strtod v = Some (d, rest) /\ beyond_int d).
(** Introductions with such a version, without region or image formats, without channels (since version 2), or with such a
    number for several objects (since version 4); without a version it is the first. *)
Definition announced_at_least (v : Z) (p : props) : Prop := exists version, props_get_int p (str "trax.version") 1 = Ok version /\ v <= version.
Definition dangerous_hello (r : read_result) : Prop :=
  rr_type r = Some MHello /\ rr_args r = [] /\
  let p := rr_props r in
  (wild_integer p (str "trax.version") \/ props_get p (str "trax.region") = Ok None \/ props_get p (str "trax.image") = Ok None \/
   (announced_at_least 2 p /\ props_get p (str "trax.channels") = Ok None) \/
   (announced_at_least 4 p /\ wild_integer p (str "trax.multiobject"))).

(** The dictionary of the caller *)
Definition usable (p : option props) : Prop := match p with Some p => made p | None => True end.

(** A side of a connection, and the text that arrives there *)
Definition faced (h : handle) (text : list N) : handle := with_in h (h_type h) (mkStream [] [text]).

(** A message of a type with arguments and properties as it is on the wire, when nothing in it needs an escape *)
Definition line (type : list N) (parts : list (list N)) : list N :=
  str "@@TRAX:" ++ type ++ flat_map (fun a => str " " ++ [34%N] ++ a ++ [34%N]) parts ++ [10%N].
(** The sides of the sample connection (version 4, two channels) after an initialization with one object; a server for single objects *)
Definition waiting_client : handle := set_objects sample_client 1.
Definition single_server : handle :=
  match connect sample_metadata3 3 whole_cut [] [] with Ok (Some (_, s)) => s | _ => sample_server end.
Definition two_files : list (list N) := [str "file:///a"; str "file:///b"].
Definition sample_hello : list (list N) :=
  [str "trax.version=4"; str "trax.region=rectangle;"; str "trax.image=path;"; str "trax.channels=color;"].
