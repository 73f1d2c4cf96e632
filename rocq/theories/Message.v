(** * Messages: codec/src/message/ and the section types of definitions.rs *)

From Coq Require Import Strings.String.
From Verif Require Export Protocol.

(** ** Sections *)

(** definitions.rs:222-232 [Section]; the aliases are at 930 [DeliveryAnnotations],
    944 [MessageAnnotations], 958 [ApplicationProperties], 972 [Data],
    983 [AmqpSequence], 994 [AmqpValue], 1005 [Footer]. *)
Inductive section : Type :=
| SHeader (x : header_t)
| SDeliveryAnnotations (m : list (bytes * variant))
| SMessageAnnotations (m : list (bytes * variant))
| SApplicationProperties (m : list (bytes * variant))
| SData (b : bytes)
| SSequence (l : list variant)
| SValue (v : variant)
| SFooter (m : list (bytes * variant))
| SProperties (x : properties_t).

(** [decode_*_inner] of a restricted type, e.g. definitions.rs:931-935: the
    [decode] of the underlying type. *)
Definition dec_restricted {A} (C : codec A) (p : profile) : parser A := decode_with (c_dec C p).
(** [encoded_size_*_inner], e.g. definitions.rs:936-939. *)
Definition sz_restricted {A} (C : codec A) (a : A) : N := 3 + c_sz C a.
(** [encode_*_inner], e.g. definitions.rs:940-943. *)
Definition enc_restricted {A} (C : codec A) (code : N) (a : A) : bytes :=
  enc_descriptor (DUlong code) ++ c_enc C a.

(** definitions.rs:233-283 decoder, 285-297 size, 298-310 encoder. *)
Definition section_c : codec section :=
  mk_codec
    (fun s => match s with
              | SHeader x => sz_inner header_k x
              | SDeliveryAnnotations m => sz_restricted symbol_map_c m
              | SMessageAnnotations m => sz_restricted symbol_map_c m
              | SApplicationProperties m => sz_restricted string_map_c m
              | SData b => sz_restricted binary_c b
              | SSequence l => sz_restricted list_c l
              | SValue v => sz_restricted variant_c v
              | SFooter m => sz_restricted fields_c m
              | SProperties x => sz_inner properties_k x
              end)
    (fun s => match s with
              | SHeader x => enc_inner header_k x
              | SDeliveryAnnotations m => enc_restricted symbol_map_c 113 m
              | SMessageAnnotations m => enc_restricted symbol_map_c 114 m
              | SApplicationProperties m => enc_restricted string_map_c 116 m
              | SData b => enc_restricted binary_c 117 b
              | SSequence l => enc_restricted list_c 118 l
              | SValue v => enc_restricted variant_c 119 v
              | SFooter m => enc_restricted fields_c 120 m
              | SProperties x => enc_inner properties_k x
              end)
    (fun p fmt inp =>
       '(d, inp) <- dec_described fmt inp ;;
       if desc_is d 112 (str "amqp:header:list")
       then map_res SHeader (dec_inner header_k p inp) else
       if desc_is d 113 (str "amqp:delivery-annotations:map")
       then map_res SDeliveryAnnotations (dec_restricted symbol_map_c p inp) else
       if desc_is d 114 (str "amqp:message-annotations:map")
       then map_res SMessageAnnotations (dec_restricted symbol_map_c p inp) else
       if desc_is d 116 (str "amqp:application-properties:map")
       then map_res SApplicationProperties (dec_restricted string_map_c p inp) else
       if desc_is d 117 (str "amqp:data:binary")
       then map_res SData (dec_restricted binary_c p inp) else
       if desc_is d 118 (str "amqp:amqp-sequence:list")
       then map_res SSequence (dec_restricted list_c p inp) else
       if desc_is d 119 (str "amqp:amqp-value:*")
       then map_res SValue (dec_restricted variant_c p inp) else
       if desc_is d 120 (str "amqp:footer:map")
       then map_res SFooter (dec_restricted fields_c p inp) else
       if desc_is d 115 (str "amqp:properties:list")
       then map_res SProperties (dec_inner properties_k p inp) else
       Err (InvalidDescriptor d)).

(** ** Messages *)

(** message.rs:17-27 [MessageInner] and body.rs:9-15 [MessageBody], without the
    nested messages and the cached size. *)
Record parts : Type := mk_parts {
  ms_format : option N;
  ms_header : option header_t;
  ms_delivery_annotations : option (list (bytes * variant));
  ms_message_annotations : option (list (bytes * variant));
  ms_properties : option properties_t;
  ms_application_properties : option (list (bytes * variant));
  ms_footer : option (list (bytes * variant));
  ms_data : list bytes;
  ms_sequence : list (list variant);
  ms_value : option variant
}.

(** message.rs:14 [Message] with [body.messages] and the cache [size];
    protocol/mod.rs:204-208 [TransferBody]. *)
Inductive message : Type :=
| Msg (s : parts) (nested : list transfer_body) (cache : N)
with transfer_body : Type :=
| TBData (b : bytes)
| TBMessage (m : message).

Definition msg_parts (m : message) : parts := match m with Msg s _ _ => s end.
Definition msg_nested (m : message) : list transfer_body := match m with Msg _ n _ => n end.
Definition msg_cache (m : message) : N := match m with Msg _ _ c => c end.

(** [#[derive(Default)]]. *)
Definition parts0 : parts := mk_parts None None None None None None None [] [] None.
Definition message0 : message := Msg parts0 [] 0.

Definition opt_n {A} (f : A -> N) (o : option A) : N :=
  match o with Some a => f a | None => 0 end.
Definition opt_b {A} (f : A -> bytes) (o : option A) : bytes :=
  match o with Some a => f a | None => [] end.

(** The size of a [Bytes] prefix plus content: body.rs:46-50. *)
Definition sz_nested (length : N) : N := length + (if 255 <? length then 5 else 2) + 3.

(** message.rs:323-342 and body.rs:37-58, what is computed when nothing is cached. *)
Definition calc_size (s : parts) (nested : N) : N :=
  sum_by (sz_restricted binary_c) (ms_data s)
  + sum_by (sz_restricted list_c) (ms_sequence s)
  + nested
  + opt_n (sz_restricted variant_c) (ms_value s)
  + opt_n (sz_inner header_k) (ms_header s)
  + opt_n (sz_restricted symbol_map_c) (ms_delivery_annotations s)
  + opt_n (sz_restricted symbol_map_c) (ms_message_annotations s)
  + opt_n (sz_inner properties_k) (ms_properties s)
  + opt_n (sz_restricted string_map_c) (ms_application_properties s)
  + opt_n (sz_restricted fields_c) (ms_footer s).

(** message.rs:316-344 [encoded_size]: the number it returns;
    protocol/mod.rs:225-232 for a [TransferBody]. *)
Fixpoint msg_size (m : message) : N :=
  match m with
  | Msg s nested cache =>
      if cache =? 0
      then calc_size s (sum_by (fun b => sz_nested (tb_size b)) nested)
      else cache
  end
with tb_size (b : transfer_body) : N :=
  match b with TBData d => blen d | TBMessage m => msg_size m end.

(** message.rs:316-344 [encoded_size]: the message afterwards.  The cell is set
    to the size that was computed, also in the nested messages that were asked
    (only when the outer cache was empty). *)
Fixpoint msg_touch (m : message) : message :=
  match m with
  | Msg s nested cache =>
      if cache =? 0 then Msg s (map tb_touch nested) (msg_size m) else m
  end
with tb_touch (b : transfer_body) : transfer_body :=
  match b with TBData d => TBData d | TBMessage m => TBMessage (msg_touch m) end.

(** body.rs:75-86: a nested message is written as a [Data] section whose
    length prefix comes from [encoded_size]. *)
Definition enc_nested (length : N) (content : bytes) : bytes :=
  enc_descriptor (DUlong 117)
  ++ (if 255 <? length then xb0 :: be 4 length else xa0 :: be 1 length)
  ++ content.

(** message.rs:346-374 and body.rs:60-87; protocol/mod.rs:233-239. *)
Fixpoint msg_enc (m : message) : bytes :=
  match m with
  | Msg s nested _ =>
      opt_b (enc_inner header_k) (ms_header s)
      ++ opt_b (enc_restricted symbol_map_c 113) (ms_delivery_annotations s)
      ++ opt_b (enc_restricted symbol_map_c 114) (ms_message_annotations s)
      ++ opt_b (enc_inner properties_k) (ms_properties s)
      ++ opt_b (enc_restricted string_map_c 116) (ms_application_properties s)
      ++ flat_map (enc_restricted binary_c 117) (ms_data s)
      ++ flat_map (enc_restricted list_c 118) (ms_sequence s)
      ++ opt_b (enc_restricted variant_c 119) (ms_value s)
      ++ flat_map (fun b => enc_nested (tb_size b) (tb_enc b)) nested
      ++ opt_b (enc_restricted fields_c 120) (ms_footer s)
  end
with tb_enc (b : transfer_body) : bytes :=
  match b with TBData d => d | TBMessage m => msg_enc m end.

(** message.rs:279-308: where a decoded section goes. *)
Definition put_section (x : section) (s : parts) : parts :=
  match s with
  | mk_parts fmt hdr da ma pr ap ft data seq val =>
      match x with
      | SHeader h => mk_parts fmt (Some h) da ma pr ap ft data seq val
      | SDeliveryAnnotations v => mk_parts fmt hdr (Some v) ma pr ap ft data seq val
      | SMessageAnnotations v => mk_parts fmt hdr da (Some v) pr ap ft data seq val
      | SApplicationProperties v => mk_parts fmt hdr da ma pr (Some v) ft data seq val
      | SFooter v => mk_parts fmt hdr da ma pr ap (Some v) data seq val
      | SProperties v => mk_parts fmt hdr da ma (Some v) ap ft data seq val
      | SSequence v => mk_parts fmt hdr da ma pr ap ft data (seq ++ [v]) val
      | SValue v => mk_parts fmt hdr da ma pr ap ft data seq (Some v)
      | SData v => mk_parts fmt hdr da ma pr ap ft (data ++ [v]) seq val
      end
  end.

(** message.rs:270-312: the loop; every turn consumes input. *)
Fixpoint dec_sections (p : profile) (fuel : nat) (acc : parts) (inp : bytes) : res parts :=
  match inp with
  | [] => Ok acc
  | _ =>
      match fuel with
      | O => NoFuel
      | S fuel =>
          '(x, inp) <- decode_with (c_dec section_c p) inp ;;
          dec_sections p fuel (put_section x acc) inp
      end
  end.
Definition dec_message (p : profile) (inp : bytes) : res message :=
  s <- dec_sections p (length inp) parts0 inp ;; Ok (Msg s [] 0).

(** ** The public methods that change a message (message.rs:30-266) *)

Definition set_header_ h (s : parts) :=
  match s with mk_parts fmt _ da ma pr ap ft data seq val => mk_parts fmt (Some h) da ma pr ap ft data seq val end.
Definition set_format_ f (s : parts) :=
  match s with mk_parts _ hdr da ma pr ap ft data seq val => mk_parts (Some f) hdr da ma pr ap ft data seq val end.
Definition set_properties_ x (s : parts) :=
  match s with mk_parts fmt hdr da ma _ ap ft data seq val => mk_parts fmt hdr da ma x ap ft data seq val end.
Definition set_delivery_ x (s : parts) :=
  match s with mk_parts fmt hdr _ ma pr ap ft data seq val => mk_parts fmt hdr x ma pr ap ft data seq val end.
Definition set_annotations_ x (s : parts) :=
  match s with mk_parts fmt hdr da _ pr ap ft data seq val => mk_parts fmt hdr da x pr ap ft data seq val end.
Definition set_app_ x (s : parts) :=
  match s with mk_parts fmt hdr da ma pr _ ft data seq val => mk_parts fmt hdr da ma pr x ft data seq val end.
Definition set_value_ x (s : parts) :=
  match s with mk_parts fmt hdr da ma pr ap ft data seq _ => mk_parts fmt hdr da ma pr ap ft data seq x end.
Definition set_body_ (d : list bytes) (q : list (list variant)) (v : option variant) (s : parts) :=
  match s with mk_parts fmt hdr da ma pr ap ft _ _ _ => mk_parts fmt hdr da ma pr ap ft d q v end.

(** [Properties::default()]. *)
Definition properties0 : properties_t :=
  mk_properties None None None None None None None None None None None None None.

(** A body: data, sequences, nested messages, value (body.rs:10-15). *)
Definition body_t : Type := (list bytes * list (list variant) * list transfer_body * option variant)%type.
Definition get_body (m : message) : body_t :=
  match m with Msg s n _ => (ms_data s, ms_sequence s, n, ms_value s) end.
Definition put_body (b : body_t) (m : message) : message :=
  match m, b with Msg s _ c, (d, q, n, v) => Msg (set_body_ d q v s) n c end.

Definition reset (m : message) : message := match m with Msg s n _ => Msg s n 0 end.
Definition upd (f : parts -> parts) (m : message) : message :=
  match m with Msg s n c => Msg (f s) n c end.

(** Closures are functions; a method that hands out [&mut T] is modelled by the
    function the caller applies to it. *)
Inductive msg_op : Type :=
| OpEncodedSize                                   (* 316-344 *)
| OpSetHeader (h : header_t)                      (* 56-60 *)
| OpSetFormat (f : N)                             (* 64-67 *)
| OpPropertiesMut (f : properties_t -> properties_t)   (* 77-84 *)
| OpSetProperties (f : properties_t -> properties_t)   (* 88-101 *)
| OpAppPropertiesMut (f : list (bytes * variant) -> list (bytes * variant))  (* 111-113 *)
| OpSetAppProperty (k : bytes) (v : variant)      (* 129-143 *)
| OpAddMessageAnnotation (k : bytes) (v : variant)     (* 159-173 *)
| OpMessageAnnotationsMut (f : list (bytes * variant) -> list (bytes * variant)) (* 183-185 *)
| OpDeliveryAnnotationsMut (f : list (bytes * variant) -> list (bytes * variant)) (* 195-197 *)
| OpUpdate (ops : list msg_op)                    (* 201-207; also 211-221 [if_some] with [Some] *)
| OpBodyMut (f : body_t -> body_t)                (* 231-233 *)
| OpSetValue (v : variant)                        (* 243-246 *)
| OpSetBody (f : body_t -> body_t).               (* 250-257 *)

Definition or_default {A} (d : A) (o : option A) : A :=
  match o with Some a => a | None => d end.

Fixpoint apply_op (o : msg_op) (m : message) : message :=
  match o with
  | OpEncodedSize => msg_touch m
  | OpSetHeader h => reset (upd (set_header_ h) m)
  | OpSetFormat f => upd (set_format_ f) m
  | OpPropertiesMut f | OpSetProperties f =>
      reset (upd (fun s => set_properties_ (Some (f (or_default properties0 (ms_properties s)))) s) m)
  | OpAppPropertiesMut f =>
      upd (fun s => set_app_ (option_map f (ms_application_properties s)) s) m
  | OpSetAppProperty k v =>
      reset (upd (fun s => set_app_ (Some (or_default [] (ms_application_properties s) ++ [(k, v)])) s) m)
  | OpAddMessageAnnotation k v =>
      reset (upd (fun s => set_annotations_ (Some (or_default [] (ms_message_annotations s) ++ [(k, v)])) s) m)
  | OpMessageAnnotationsMut f =>
      upd (fun s => set_annotations_ (option_map f (ms_message_annotations s)) s) m
  | OpDeliveryAnnotationsMut f =>
      upd (fun s => set_delivery_ (option_map f (ms_delivery_annotations s)) s) m
  | OpUpdate ops => fold_left (fun m o => apply_op o m) ops (reset m)
  | OpBodyMut f => put_body (f (get_body m)) m
  | OpSetValue v => upd (set_value_ (Some v)) m
  | OpSetBody f => reset (put_body (f (get_body m)) m)
  end.
