(** Small specifications for reading the pages of a document. *)
From Verif Require Import XPagesModel ExtractSpec ManipSpec PageModel.
From Verif Require PageSpec.
Local Open Scope Z_scope.

(* ---------------------------------------------------------------- *)
(** The page tree as the extractor recognises it. *)
Definition mentions (p t : bytes) : Prop := contains p t = true.
Definition shows_page (t : bytes) : Prop :=
  contains (bs "/Type/Pages") t = false /\ contains (bs "/Type /Pages") t = false /\ (mentions (bs "/Type/Page") t \/ mentions (bs "/Type /Page") t).
(** a node: its kids follow the key without white space *)
Definition shows_node (t : bytes) (kids : list Z) : Prop :=
  (mentions (bs "/Type/Pages") t \/ mentions (bs "/Type /Pages") t) /\
  exists a v b, t = a ++ bs "/Kids" ++ v ++ b /\ ref_array kids v /\ contains (bs "/Kids") a = false /\ contains (bs "/Kids") b = false.
(** [get] reads the objects of the tree; [pg] gives its pages. *)
Fixpoint reads_tree (get : Z -> result bytes) (t : ptree) : Prop :=
  match t with
  | PPage n => exists x, get n = Ok x /\ shows_page x
  | PNode n kids =>
      (exists x, get n = Ok x /\ shows_node x (map pnum kids)) /\ fold_right (fun k P => reads_tree get k /\ P) True kids
  end.

(* ---------------------------------------------------------------- *)
(** Pages made by the page builder. *)

(** The fonts of a page, all of them with the standard encoding. *)
Definition standard_decoder : decoder := SetBaseEncoding (bs "StandardEncoding") NewFontDecoder.
Definition standard_fonts (fonts : list (bytes * Z)) : list (bytes * decoder) := map (fun e => (bs "/" ++ fst e, standard_decoder)) fonts.
(** The page read back from a builder that drew [cs], with its font decoders. *)
Definition page_read (rd : float -> float) (one zero : float) (z w h : float) (decs : list (bytes * decoder)) (cs : list (ccall float)) (i : Z) : xpage :=
  mkXP i (Some [z; z; w; h]) (fsub w z) (fsub h z) None 0
    (seen (texts_seen rd (Some decs)) [] cs) (seen (shapes_seen rd) [] cs) (seen (images_seen rd one zero) [] cs).
(** Resource names: words that do not start like a key of a page. *)
Definition page_keys : list bytes := map bs ["Resources"; "Rotate"; "CropBox"; "Type"; "Font"]%string.
Definition name_free (n : bytes) : Prop := n <> [] /\ forallb is_word n = true /\ existsb (fun k => prefixb k n) page_keys = false.
(** A width or height as printed: digits, sign, decimal point. *)
Definition numeral (v : bytes) : Prop := v <> [] /\ forallb is_numch v = true.
(** The name of a standard font: not one that starts like a key of a font. *)
Definition font_keys : list bytes := map bs ["Encoding"; "Differences"; "ToUnicode"; "Subtype"]%string.
Definition font_word (n : bytes) : Prop := n <> [] /\ forallb is_name_tok n = true /\ existsb (fun k => prefixb k n) font_keys = false.
(** Compressed data that can be found again. *)
Definition data_ok (d : bytes) : Prop := contains (bs "endstream") d = false /\ match d with [] => False | b :: _ => b <> x0a end.

(* ---------------------------------------------------------------- *)
(** A document built with the page builder and read again. *)

(** The calls in scope: page sizes that print as numbers, standard fonts, images
    with plain names; no embedded fonts and no bookmarks. *)
Definition bcall_ok (c : PageSpec.bcall) : Prop :=
  match c with
  | PageSpec.BPage w h => numeral w /\ numeral h
  | PageSpec.BFont _ n => font_word n
  | PageSpec.BImage _ n k => (n = [] \/ name_free (unslash n)) /\ 0 <= k < 2 ^ 63
  | PageSpec.BEmbedded _ _ _ | PageSpec.BBookmarks _ => False
  | _ => True
  end.
(** What was drawn on a page: its size, and the calls on its content stream. *)
Record drawing := mkDrawing { dwWidth : float; dwHeight : float; dwCalls : list (ccall float) }.
Definition page_drawn (deflate : bytes -> bytes) (fmt : float -> bytes) (parse_float : bytes -> option float) (rd : float -> float) (one zero : float)
  (pb : page_builder) (d : drawing) : Prop :=
  parse_float (pbWidth pb) = Some (dwWidth d) /\ parse_float (pbHeight pb) = Some (dwHeight d) /\
  pbContent pb = content_stream fmt one zero (dwCalls d) /\ Forall (call_ok fmt parse_float rd) (dwCalls d) /\
  (dwCalls d <> [] -> data_ok (deflate (pbContent pb))).
(** The pages that should be read: number [i], [i+1], ... *)
Fixpoint pages_read (rd : float -> float) (one zero z : float) (i : Z) (pbs : list page_builder) (ds : list drawing) : list xpage :=
  match pbs, ds with
  | pb :: pbs', d :: ds' =>
      page_read rd one zero z (dwWidth d) (dwHeight d) (standard_fonts (pbFonts pb)) (dwCalls d) i :: pages_read rd one zero z (i + 1) pbs' ds'
  | _, _ => []
  end.
(** The texts drawn on a page, and when they are plain ASCII (the standard
    encoding has quotation marks at the apostrophe and the grave accent). *)
Definition plain_char (b : byte) : bool :=
  ((32 <=? b2n b) && (b2n b <=? 126))%N && negb (beqb b "'") && negb (beqb b "`").
Definition texts_drawn (cs : list (ccall float)) : list bytes :=
  flat_map (fun c => match c with
    | ShowText _ s | ShowTextNextLine _ s => [s]
    | ShowTextArray _ l => [flat_map string_of l]
    | _ => []
    end) cs.
Definition plain_call (c : ccall float) : Prop :=
  match c with
  | ShowText _ s | ShowTextNextLine _ s => forallb plain_char s = true
  | ShowTextArray _ l => Forall (fun e => forallb plain_char (string_of e) = true) l
  | ShowTextHex _ _ => False
  | _ => True
  end.

(* ---------------------------------------------------------------- *)
(** The catalog names the root of the page tree. *)
Definition names_tree (get : Z -> result bytes) (root tree : Z) : Prop :=
  exists a wp wd b, get root = Ok (a ++ bs "/Pages" ++ wp ++ decZ tree ++ wd ++ b) /\ contains (bs "/Pages") a = false /\ gap wp /\ gap wd.
(** the same page, up to its number *)
Definition same_content (p q : xpage) : Prop :=
  xpMedia p = xpMedia q /\ xpWidth p = xpWidth q /\ xpHeight p = xpHeight q /\ xpCrop p = xpCrop q /\ xpRotation p = xpRotation q /\
  xpTexts p = xpTexts q /\ xpShapes p = xpShapes q /\ xpImages p = xpImages q.
