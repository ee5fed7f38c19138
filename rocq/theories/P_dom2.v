(** Property C93, the part of it that holds: ordinary documents are read back as they were. *)
From Coq Require Import ZArith List Bool String Lia.
From Verif Require Import M_infra M_encoding M_labels M_html M_html_ncr M_html_serialize L_html_serialize L_html7 L_html8 L_html9 M_dom_names M_dom M_dom2 L_dom L_dom2 L_dom3 L_dom8 L_dom9.
Import ListNotations.
Open Scope Z_scope.
Open Scope list_scope.

(** C93: a document that was written is read back as the same tree. [Ordinary] (L_dom9.v) is about the shape of the document:
    a head and a body, and only elements that may stand where they stand without being moved ([fits], L_dom3.v). [Row]
    (L_html9.v) is about names and texts: they have no characters that are read differently, and the texts of raw elements
    do not hold an end tag. *)
Theorem C93_ordinary_partial : forall listed n toks fuel1 steps fuel, Ordinary n -> Row (children n) toks ->
  (sizes (children n) < fuel1)%nat -> (2 <= fuel)%nat ->
  exists text, to_string fuel1 n = Val text /\
    ((24 * List.length text + 13 <= steps)%nat -> parse listed match_ncr steps fuel text = Val n).
Proof. exact read_back. Qed.
Print Assumptions C93_ordinary_partial.

(** An example: a document type, comments, a title, a style and a script, attributes, paragraphs with formatting, lists, a
    table in which a cell holds a form with a select, and text that begins with a newline in a pre. *)
Definition el (name : string) (kids : list node) : node := NElement ns_HTML [] (lit name) [] kids.
Definition el_with (name a v : string) (kids : list node) : node :=
  NElement ns_HTML [] (lit name) [Attr 0 [] (lit a) (lit v)] kids.
Definition txt (s : string) : node := NText (lit s).
Definition head_kids : list node := [el "title" [txt "a<b & c"]; txt " "; el_with "meta" "charset" "utf-8" []; el "style" [txt "p > b { }"]; el "script" [txt "x < 3"]].
Definition body_kids : list node :=
  [el_with "div" "class" "x ""y""" [el "h1" [txt "T"]; el "p" [txt "one "; el "b" [txt "two"; el "i" [txt "<3"]]; el "br" []; NComment (lit "c")];
     el "ul" [el "li" [txt "a"; el "p" [txt "q"]]; txt " "; el "li" [el "a" [txt "b"]]]; el "dl" [el "dt" [txt "t"]; el "dd" [txt "d"]];
     el "pre" [txt " x"]; el "textarea" [txt "</p>"]; el "button" [el "p" [txt "z"]]];
   txt " ";
   el "table" [txt " "; el "caption" [txt "c"]; el "colgroup" [el "col" []]; el "tbody" [el "tr" [el "th" [txt "h"];
     el "td" [el "form" [el_with "input" "name" "n" []; el "select" [el "optgroup" [el "option" [txt "1"]; el "option" [txt "2"]]]; el "table" []]]; txt " "]]];
   el "ruby" [txt "r"]; el "my-tag" [txt "m"]].
Definition ordinary_page : node :=
  NDocument [NComment (lit "first"); NDoctype (lit "html"); NComment (lit "second");
    NElement ns_HTML [] (lit "html") [Attr 0 [] (lit "lang") (lit "ja")]
      [el "head" head_kids; txt " "; el "body" body_kids; NComment (lit "third")]; NComment (lit "last")].

Ltac all_of :=
  lazymatch goal with |- Forall ?P ?l => let x := eval vm_compute in l in change (Forall P x) end;
  repeat (apply Forall_cons; [unfold attr_char, name_char, doctype_char, name_start; lia|]); apply Forall_nil.
Ltac attrs_of :=
  lazymatch goal with
  | |- AttrsRead [] _ => apply AR_nil
  | |- AttrsRead _ _ => apply AR_cons; [constructor| |attrs_of|intros []]; split; [discriminate|]; split; all_of
  end.
Ltac no_such :=
  let q := fresh in let r := fresh in let H := fresh in intros q r H; vm_compute in H;
  repeat (destruct q as [|? q]; [discriminate H|injection H as _ H]); destruct q; discriminate H.
Ltac texts_of := lazymatch goal with |- Texts [NText ?d] _ => apply (Tx_cons d [] []), Tx_nil | |- Texts [] _ => apply Tx_nil end.
Ltac node_of :=
  lazymatch goal with
  | |- Reads (NText _) _ => apply R_text; all_of
  | |- Reads (NComment _) _ => apply R_comment; split; [all_of|]; split; [intros r H; discriminate H|]; split; [intros r H; discriminate H|]; split; no_such
  | |- Reads (NDoctype _) _ => apply R_doctype; [discriminate|all_of]
  | |- Reads (NElement ?ns ?p ?l ?a ?c) _ =>
      let t := eval vm_compute in (tname_of l) in
      lazymatch t with
      | T_script => apply L_html9.R_script; [attrs_of|texts_of|all_of|vm_compute; repeat split; intros; discriminate|vm_compute; repeat split; intros; discriminate]
      | T_style => apply R_raw; [attrs_of|vm_compute; tauto|texts_of|all_of|vm_compute; repeat split; intros; discriminate]
      | T_title => apply (L_html9.R_rcdata 1 [] l a c l); [constructor; auto|attrs_of|vm_compute; tauto|texts_of|all_of]
      | T_textarea => apply (L_html9.R_rcdata 1 [] l a c l); [constructor; auto|attrs_of|vm_compute; tauto|texts_of|all_of]
      | _ =>
          let v := eval vm_compute in (among t void_tnames) in
          lazymatch v with
          | true => apply (R_void ns p l a l); [split; [reflexivity|vm_compute; tauto]|constructor; auto|attrs_of]
          | false => apply (R_element ns p l a c l);
              [intros [_ H]; vm_compute in H; intuition discriminate|constructor; auto|attrs_of
              |eexists; eexists; split; [vm_compute; reflexivity|]; split; [unfold name_start; lia|all_of]|vm_compute; intuition discriminate|row_of]
          end
      end
  end
with row_of := lazymatch goal with |- Row [] _ => apply Row_nil | |- Row (_ :: _) _ => apply Row_cons; [node_of|row_of] end.

Example C93_ordinary_partial_ex : Ordinary ordinary_page /\ (exists toks, Row (children ordinary_page) toks) /\
  to_string 200 ordinary_page = Val (lit ("<!--first--><!DOCTYPE html><!--second--><html lang=""ja""><head><title>a&lt;b &amp; c</title> <meta charset=""utf-8"">"
    ++ "<style>p > b { }</style><script>x < 3</script></head> <body><div class=""x &quot;y&quot;""><h1>T</h1><p>one <b>two<i>&lt;3</i></b><br><!--c--></p>"
    ++ "<ul><li>a<p>q</p></li> <li><a>b</a></li></ul><dl><dt>t</dt><dd>d</dd></dl><pre> x</pre><textarea>&lt;/p&gt;</textarea><button><p>z</p></button></div> "
    ++ "<table> <caption>c</caption><colgroup><col></colgroup><tbody><tr><th>h</th><td><form><input name=""n""><select><optgroup><option>1</option>"
    ++ "<option>2</option></optgroup></select><table></table></form></td> </tr></tbody></table><ruby>r</ruby><my-tag>m</my-tag></body><!--third--></html><!--last-->")).
Proof.
  split; [|split].
  - apply (Ordinary_intro [NComment (lit "first")] [NDoctype (lit "html")] [NComment (lit "second")] [Attr 0 [] (lit "lang") (lit "ja")] []
      [] head_kids [txt " "] [] body_kids [NComment (lit "third")] [NComment (lit "last")]); try (vm_compute; reflexivity). right. eexists. reflexivity.
  - eexists. unfold ordinary_page. cbn [children]. unfold head_kids, body_kids, el, el_with, txt. row_of.
  - vm_compute. reflexivity.
Qed.
