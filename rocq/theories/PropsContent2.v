(** The remaining content commands: C116-C120. *)
From Coq Require Import List NArith ZArith PeanoNat Bool String.
From Verif Require Import PyStr Json DelimSpec ContentModel ContentSpec ContentSpec2.
From Verif Require ContentProofs8.
From Verif Require ContentProofs6 ContentProofs7 ContentShared ContentCases2.
Import ListNotations. Notation length := List.length. Open Scope list_scope.

(** C116: references and links. *)
Theorem C116_ref : forall word expand d name star ws body rest, In name ["\autoref"; "\eqref"; "\pageref"; "\ref"]%string -> blank ws -> closed body ->
  takes (content_handle word expand d) (lit name ++ starred star ++ ws ++ group body) rest d (token "ref" [field "content" (VList [VStr (strip (expand body))])]).
Proof. exact ContentProofs6.ref_command. Qed.
Print Assumptions C116_ref.
Theorem C116_hyperref : forall word expand d ws1 lab ws2 body rest, blank ws1 -> blank ws2 -> ~ In c_rk lab -> closed body ->
  takes (content_handle word expand d) (lit "\hyperref" ++ ws1 ++ bracketed (Some lab) ++ ws2 ++ group body) rest d
    (token "ref" [field "title" (VStr (strip (expand body))); field "content" (VList [VStr (strip lab)])]).
Proof. exact ContentProofs6.hyperref_command. Qed.
Print Assumptions C116_hyperref.
Theorem C116_href : forall word expand d ws1 u ws2 body rest, blank ws1 -> blank ws2 -> flat u -> closed body ->
  takes (content_handle word expand d) (lit "\href" ++ ws1 ++ group u ++ ws2 ++ group body) rest d
    (token "url" [field "title" (VStr (strip (expand body))); field "content" (VStr (strip u))]).
Proof. exact ContentProofs6.href_command. Qed.
Print Assumptions C116_href.
Theorem C116_url : forall word expand d name ws body rest, In name ["\url"; "\path"]%string -> blank ws -> closed body ->
  takes (content_handle word expand d) (lit name ++ ws ++ group body) rest d (token "url" [field "content" (VStr (strip (expand body)))]).
Proof. exact ContentProofs6.url_command. Qed.
Print Assumptions C116_url.
Theorem C116_doi : forall word expand d ws body rest, blank ws -> closed body ->
  takes (content_handle word expand d) (lit "\doi" ++ ws ++ group body) rest d (token "url" [field "content" (VStr (lit "https://doi.org/" ++ strip (expand body)))]).
Proof. exact ContentProofs6.doi_command. Qed.
Print Assumptions C116_doi.
Example C116_case : closed (lit "the {first} one") /\ ~ In c_rk (lit " sec:a ") /\
  lit "\hyperref" ++ lit " " ++ bracketed (Some (lit " sec:a ")) ++ [] ++ group (lit "the {first} one") = lit "\hyperref [ sec:a ]{the {first} one}".
Proof. exact ContentCases2.hyperref_case. Qed.
(** A closing brace inside the address of \href ends it. *)
Theorem C116_address_refuted : forall word, content_handle word (fun s => s) [] (lit "\href{a{b}c}{text}") = Ok ([], (VNone, 0)).
Proof. exact ContentCases2.href_braces. Qed.
Print Assumptions C116_address_refuted.

(** C117: footnotes and captions. *)
Theorem C117_footnote : forall word expand d star o ws body rest, good_note o -> blank ws -> closed body ->
  takes (content_handle word expand d) (lit "\footnote" ++ starred star ++ bracketed o ++ ws ++ group body) rest d (token "footnote" [field "content" (VStr (strip (expand body)))]).
Proof. exact ContentProofs6.footnote_command. Qed.
Print Assumptions C117_footnote.
Theorem C117_footnotetext : forall word expand d o ws body rest, good_note o -> blank ws -> closed body ->
  takes (content_handle word expand d) (lit "\footnotetext" ++ bracketed o ++ ws ++ group body) rest d (token "footnote" [field "content" (VStr (strip (expand body)))]).
Proof. exact ContentProofs6.footnotetext_command. Qed.
Print Assumptions C117_footnotetext.
Theorem C117_mark : forall word expand d a rest, ~ In c_rk a -> a <> [] ->
  takes (content_handle word expand d) (lit "\footnotemark" ++ [c_lk] ++ a ++ [c_rk]) rest d (token "footnote" [field "content" (VStr (strip a))]).
Proof. exact ContentCases2.mark_given. Qed.
Print Assumptions C117_mark.
Theorem C117_bare_mark : forall word expand d rest, (forall r, rest <> c_lk :: r) ->
  takes (content_handle word expand d) (lit "\footnotemark") rest d (token "footnote" [field "content" (VStr (lit "*"))]).
Proof. exact ContentCases2.mark_bare. Qed.
Print Assumptions C117_bare_mark.
Theorem C117_caption : forall word expand d name star ws1 o ws2 body rest, In name ["\caption"; "\subcaption"]%string -> blank ws1 -> blank ws2 -> good_note o -> closed body ->
  takes (content_handle word expand d) (lit name ++ starred star ++ ws1 ++ bracketed o ++ ws2 ++ group body) rest d (token "caption" [field "content" (VStr (strip (expand body)))]).
Proof. exact ContentProofs6.caption_command. Qed.
Print Assumptions C117_caption.
Theorem C117_captionof : forall word expand d star ws1 a ws2 body rest, blank ws1 -> blank ws2 -> flat a -> closed body ->
  takes (content_handle word expand d) (lit "\captionof" ++ starred star ++ ws1 ++ group a ++ ws2 ++ group body) rest d
    (token "caption" [field "title" (VStr (strip a)); field "content" (VStr (strip (expand body)))]).
Proof. exact ContentProofs6.captionof_command. Qed.
Print Assumptions C117_captionof.
Example C117_case : good_note (Some (lit "short")) /\ closed (lit "A {long} one") /\
  lit "\caption" ++ starred true ++ lit " " ++ bracketed (Some (lit "short")) ++ [] ++ group (lit "A {long} one") = lit "\caption* [short]{A {long} one}".
Proof. exact ContentCases2.caption_case. Qed.
(** A blank before the mark of a footnote makes it no footnote; a caption whose short form has brackets of its own is no caption. *)
Theorem C117_blank_refuted : forall word, content_handle word (fun s => s) [] (lit "\footnote [3]{text}") = Ok ([], (VNone, 0)) /\
  content_handle word (fun s => s) [] (lit "\caption[see {[1]}]{text}") = Ok ([], (VNone, 0)).
Proof. exact ContentCases2.blank_mark. Qed.
Print Assumptions C117_blank_refuted.

(** C118: graphics and their pages. *)
Theorem C118_graphics : forall word expand d ws1 o ws2 body rest p, blank ws1 -> blank ws2 -> good_note o -> closed body -> option_page o p ->
  takes (content_handle word expand d) (lit "\includegraphics" ++ ws1 ++ bracketed o ++ ws2 ++ group body) rest d
    (token "includegraphics" (field "content" (VStr (strip (expand body))) :: page_field p)).
Proof. exact ContentProofs7.graphics_command. Qed.
Print Assumptions C118_graphics.
Theorem C118_pdf : forall word expand d ws1 o ws2 body rest p, blank ws1 -> blank ws2 -> good_note o -> closed body -> option_pages o p ->
  takes (content_handle word expand d) (lit "\includepdf" ++ ws1 ++ bracketed o ++ ws2 ++ group body) rest d
    (token "includepdf" (field "content" (VStr (strip (expand body))) :: pages_field p)).
Proof. exact ContentProofs7.pages_command. Qed.
Print Assumptions C118_pdf.
Example C118_case : option_page (Some (lit "width=3cm,page=12, trim={0 0}")) (Some 12) /\ option_pages (Some (lit "pages={1-3,5},scale=2")) (Some (lit "1-3,5")).
Proof. exact ContentCases2.pages_case. Qed.
(** Not every option that ends in "page" is the page, blanks hide the pages, and a star hides the graphic. *)
Theorem C118_options_refuted :
  (forall word, content_handle word (fun s => s) [] (lit "\includegraphics[startpage=2,page=5]{f}") =
     Ok ([], (token "includegraphics" [field "content" (VStr (lit "f")); field "page" (VInt 2)], 39))) /\
  (forall word, content_handle word (fun s => s) [] (lit "\includepdf[pages={1, 3}]{f}") = Ok ([], (token "includepdf" [field "content" (VStr (lit "f"))], 28))) /\
  (forall word, content_handle word (fun s => s) [] (lit "\includegraphics*{f}") = Ok ([], (VNone, 0))).
Proof. exact ContentCases2.options. Qed.
Print Assumptions C118_options_refuted.

(** C119: citation aliases.  After any definitions a handler that was cleared gives each key its latest text. *)
Theorem C119_aliases : forall word expand defs w i name ws body rest ks, nth i (ContentShared.own w) None = Some [] -> Forall (fun kv => flat (fst kv) /\ closed (snd kv)) defs ->
  In name ["\citetalias"; "\citepalias"]%string -> blank ws -> closed body -> expand body = join [c_comma] ks -> ks <> [] -> (forall k, In k ks -> ~ In c_comma k) ->
  last (snd (ContentShared.do_calls word expand w (map (fun kv => ContentShared.Handle i (lit "\defcitealias" ++ group (fst kv) ++ group (snd kv))) defs ++
      [ContentShared.Handle i ((lit name ++ ws ++ group body) ++ rest)]))) None =
    Some (Ok (one_or_list (map (fun k => alias_citation (map (fun kv => (strip (fst kv), strip (expand (snd kv)))) defs) (strip k)) ks), length (lit name ++ ws ++ group body))).
Proof. exact ContentShared.history. Qed.
Print Assumptions C119_aliases.
(** Such a handler answers as if it were alone, whatever other handlers do in between. *)
Theorem C119_isolated : forall word expand i cs w b, nth i (ContentShared.own w) None = Some b ->
  map snd (filter (fun p => ContentShared.on i (fst p)) (combine cs (snd (ContentShared.do_calls word expand w cs)))) =
    snd (ContentShared.do_calls word expand w (filter (ContentShared.on i) cs)).
Proof. exact ContentShared.isolated. Qed.
Print Assumptions C119_isolated.
Theorem C119_cleared : forall word expand cs w i, i < length (ContentShared.own w) ->
  nth i (ContentShared.own (fst (ContentShared.do_calls word expand w (cs ++ [ContentShared.Clear i])))) None = Some [].
Proof. exact ContentShared.cleared. Qed.
Print Assumptions C119_cleared.
Example C119_case : alias_citation [(lit "a", lit "One"); (lit "b", lit "Two"); (lit "a", lit "Three")] (lit "a") =
    VDict [(lit "type", VStr (lit "citation")); (lit "content", VList [VStr (lit "a")]); (lit "title", VStr (lit "Three"))] /\
  Forall (fun kv => flat (fst kv) /\ closed (snd kv)) [(lit "a", lit "One"); (lit "b", lit "{T}wo")].
Proof. exact ContentCases2.alias_case. Qed.
(** Handlers that were never cleared share their aliases. *)
Theorem C119_shared_refuted :
  snd (ContentShared.do_calls ContentShared.never ContentShared.as_is ContentShared.fresh
        [ContentShared.Create; ContentShared.Create; ContentShared.Handle 0 (lit "\defcitealias{knuth}{TAOCP}"); ContentShared.Handle 1 (lit "\citetalias{knuth}")]) =
    [None; None; Some (Ok (VNone, 27)); Some (Ok (VDict [(lit "type", VStr (lit "citation")); (lit "content", VList [VStr (lit "knuth")]); (lit "title", VStr (lit "TAOCP"))], 18))] /\
  snd (ContentShared.do_calls ContentShared.never ContentShared.as_is ContentShared.fresh [ContentShared.Create; ContentShared.Create; ContentShared.Handle 1 (lit "\citetalias{knuth}")]) =
    [None; None; Some (Ok (VDict [(lit "type", VStr (lit "citation")); (lit "content", VList [VStr (lit "knuth")])], 18))].
Proof. exact ContentShared.shared. Qed.
Print Assumptions C119_shared_refuted.

(** C120: headings, files and what is dropped. *)
Theorem C120_part : forall word expand d name lvl star ws body rest, (name, lvl) = ("\part"%string, 0%Z) \/ (name, lvl) = ("\chapter"%string, 1%Z) -> blank ws -> closed body ->
  takes (content_handle word expand d) (lit name ++ starred star ++ ws ++ group body) rest d
    (token "section" [field "title" (VStr (strip (expand body))); field "level" (VInt lvl); field "numbered" (VBool (negb star))]).
Proof. exact ContentProofs6.part_command. Qed.
Print Assumptions C120_part.
Theorem C120_title : forall word expand d ws1 o ws2 body rest, blank ws1 -> blank ws2 -> good_note o -> closed body ->
  takes (content_handle word expand d) (lit "\title" ++ ws1 ++ bracketed o ++ ws2 ++ group body) rest d (token "title" [field "content" (VStr (strip (expand body)))]).
Proof. exact ContentProofs6.title_command. Qed.
Print Assumptions C120_title.
Theorem C120_file : forall word expand d name ty ws body rest,
  In (name, ty) [("\abstract", "abstract"); ("\keywords", "keywords"); ("\input", "input_file"); ("\include", "input_file"); ("\bibliography", "bibliography_file"); ("\addbibresource", "bibliography_file")]%string ->
  blank ws -> closed body -> takes (content_handle word expand d) (lit name ++ ws ++ group body) rest d (token ty [field "content" (VStr (strip (expand body)))]).
Proof. exact ContentProofs6.file_command. Qed.
Print Assumptions C120_file.
Theorem C120_dropped : forall word expand d ws1 o ws2 body rest, blank ws1 -> blank ws2 -> good_note o -> closed body ->
  takes (content_handle word expand d) (lit "\graphicspath" ++ ws1 ++ group body) rest d VNone /\
  takes (content_handle word expand d) (lit "\bookmark" ++ ws1 ++ bracketed o ++ ws2 ++ group body) rest d VNone.
Proof. exact ContentCases2.dropped. Qed.
Print Assumptions C120_dropped.
Example C120_case : closed (lit "{fig/}{img/}") /\ lit "\graphicspath" ++ [] ++ group (lit "{fig/}{img/}") = lit "\graphicspath{{fig/}{img/}}".
Proof. exact ContentCases2.path_case. Qed.
Theorem C120_pdfbookmark : forall word expand d q ws1 o ws2 a ws3 body rest, In q ["below"; "current"; ""]%string -> blank ws1 -> blank ws2 -> blank ws3 -> good_note o -> flat a -> closed body ->
  takes (content_handle word expand d) (lit "\" ++ lit q ++ lit "pdfbookmark" ++ ws1 ++ bracketed o ++ ws2 ++ group a ++ ws3 ++ group body) rest d VNone.
Proof. exact ContentProofs8.pdfbookmark_command. Qed.
Print Assumptions C120_pdfbookmark.
Theorem C120_appendix : forall word expand d name rest, In name ["appendix"; "appendices"]%string -> word 120%N = true -> word 115%N = true ->
  (forall x r, rest = x :: r -> word x = false) -> takes (content_handle word expand d) (lit "\" ++ lit name) rest d (token "appendix" []).
Proof. exact ContentProofs8.appendix_command. Qed.
Print Assumptions C120_appendix.
Example C120_case_bookmark : lit "\" ++ lit "below" ++ lit "pdfbookmark" ++ [] ++ bracketed (Some (lit "1")) ++ [] ++ group (lit "A") ++ [] ++ group (lit "x") = lit "\belowpdfbookmark[1]{A}{x}" /\
  good_note (Some (lit "1")) /\ flat (lit "A") /\ closed (lit "x").
Proof. exact ContentCases2.bookmark_case. Qed.
(** \input without braces is not read, and several bibliography files are one name. *)
Theorem C120_input_refuted : forall word, content_handle word (fun s => s) [] (lit "\input chapter1") = Ok ([], (VNone, 0)) /\
  content_handle word (fun s => s) [] (lit "\bibliography{a,b}") = Ok ([], (token "bibliography_file" [field "content" (VStr (lit "a,b"))], 18)).
Proof. exact ContentCases2.input. Qed.
Print Assumptions C120_input_refuted.
