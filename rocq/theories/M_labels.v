(** Model of the encoding labels.
    Source: lib/whatwg/encoding/encoding.cpp and include/wordring/whatwg/encoding/encoding.hpp; the table is copied
    mechanically. Definitions only. *)
From Coq Require Import ZArith List Bool String Ascii.
From Verif Require Import M_unicode M_infra M_encoding.
Import ListNotations.
Open Scope Z_scope.

(** The code points of a string literal of ASCII characters. *)
Fixpoint lit (s : string) : list Z :=
  match s with
  | EmptyString => []
  | String c r => Z.of_N (N_of_ascii c) :: lit r
  end.

(** encoding.cpp:10-276 *)
Definition encoding_label_map : list (list Z * encoding_name) :=
  map (fun e : string * encoding_name => (lit (fst e), snd e)) [
    ("unicode-1-1-utf-8"%string, UTF_8);
    ("utf-8"%string, UTF_8);
    ("utf8"%string, UTF_8);
    ("866"%string, IBM866);
    ("cp866"%string, IBM866);
    ("csibm866"%string, IBM866);
    ("ibm866"%string, IBM866);
    ("csisolatin2"%string, ISO_8859_2);
    ("iso-8859-2"%string, ISO_8859_2);
    ("iso-ir-101"%string, ISO_8859_2);
    ("iso8859-2"%string, ISO_8859_2);
    ("iso88592"%string, ISO_8859_2);
    ("iso_8859-2"%string, ISO_8859_2);
    ("iso_8859-2:1987"%string, ISO_8859_2);
    ("l2"%string, ISO_8859_2);
    ("latin2"%string, ISO_8859_2);
    ("csisolatin3"%string, ISO_8859_3);
    ("iso-8859-3"%string, ISO_8859_3);
    ("iso-ir-109"%string, ISO_8859_3);
    ("iso8859-3"%string, ISO_8859_3);
    ("iso88593"%string, ISO_8859_3);
    ("iso_8859-3"%string, ISO_8859_3);
    ("iso_8859-3:1988"%string, ISO_8859_3);
    ("l3"%string, ISO_8859_3);
    ("latin3"%string, ISO_8859_3);
    ("csisolatin4"%string, ISO_8859_4);
    ("iso-8859-4"%string, ISO_8859_4);
    ("iso-ir-110"%string, ISO_8859_4);
    ("iso8859-4"%string, ISO_8859_4);
    ("iso88594"%string, ISO_8859_4);
    ("iso_8859-4"%string, ISO_8859_4);
    ("iso_8859-4:1988"%string, ISO_8859_4);
    ("l4"%string, ISO_8859_4);
    ("latin4"%string, ISO_8859_4);
    ("csisolatincyrillic"%string, ISO_8859_5);
    ("cyrillic"%string, ISO_8859_5);
    ("iso-8859-5"%string, ISO_8859_5);
    ("iso-ir-144"%string, ISO_8859_5);
    ("iso8859-5"%string, ISO_8859_5);
    ("iso88595"%string, ISO_8859_5);
    ("iso_8859-5"%string, ISO_8859_5);
    ("iso_8859-5:1988"%string, ISO_8859_5);
    ("arabic"%string, ISO_8859_6);
    ("asmo-708"%string, ISO_8859_6);
    ("csiso88596e"%string, ISO_8859_6);
    ("csiso88596i"%string, ISO_8859_6);
    ("csisolatinarabic"%string, ISO_8859_6);
    ("ecma-114"%string, ISO_8859_6);
    ("iso-8859-6"%string, ISO_8859_6);
    ("iso-8859-6-e"%string, ISO_8859_6);
    ("iso-8859-6-i"%string, ISO_8859_6);
    ("iso-ir-127"%string, ISO_8859_6);
    ("iso8859-6"%string, ISO_8859_6);
    ("iso88596"%string, ISO_8859_6);
    ("iso_8859-6"%string, ISO_8859_6);
    ("iso_8859-6:1987"%string, ISO_8859_6);
    ("csisolatingreek"%string, ISO_8859_7);
    ("ecma-118"%string, ISO_8859_7);
    ("elot_928"%string, ISO_8859_7);
    ("greek"%string, ISO_8859_7);
    ("greek8"%string, ISO_8859_7);
    ("iso-8859-7"%string, ISO_8859_7);
    ("iso-ir-126"%string, ISO_8859_7);
    ("iso8859-7"%string, ISO_8859_7);
    ("iso88597"%string, ISO_8859_7);
    ("iso_8859-7"%string, ISO_8859_7);
    ("iso_8859-7:1987"%string, ISO_8859_7);
    ("sun_eu_greek"%string, ISO_8859_7);
    ("csiso88598e"%string, ISO_8859_8);
    ("csisolatinhebrew"%string, ISO_8859_8);
    ("hebrew"%string, ISO_8859_8);
    ("iso-8859-8"%string, ISO_8859_8);
    ("iso-8859-8-e"%string, ISO_8859_8);
    ("iso-ir-138"%string, ISO_8859_8);
    ("iso8859-8"%string, ISO_8859_8);
    ("iso88598"%string, ISO_8859_8);
    ("iso_8859-8"%string, ISO_8859_8);
    ("iso_8859-8:1988"%string, ISO_8859_8);
    ("visual"%string, ISO_8859_8);
    ("csiso88598i"%string, ISO_8859_8_I);
    ("iso-8859-8-i"%string, ISO_8859_8_I);
    ("logical"%string, ISO_8859_8_I);
    ("csisolatin6"%string, ISO_8859_10);
    ("iso-8859-10"%string, ISO_8859_10);
    ("iso-ir-157"%string, ISO_8859_10);
    ("iso8859-10"%string, ISO_8859_10);
    ("iso885910"%string, ISO_8859_10);
    ("l6"%string, ISO_8859_10);
    ("latin6"%string, ISO_8859_10);
    ("iso-8859-13"%string, ISO_8859_13);
    ("iso8859-13"%string, ISO_8859_13);
    ("iso885913"%string, ISO_8859_13);
    ("iso-8859-14"%string, ISO_8859_14);
    ("iso8859-14"%string, ISO_8859_14);
    ("iso885914"%string, ISO_8859_14);
    ("csisolatin9"%string, ISO_8859_15);
    ("iso-8859-15"%string, ISO_8859_15);
    ("iso8859-15"%string, ISO_8859_15);
    ("iso885915"%string, ISO_8859_15);
    ("iso_8859-15"%string, ISO_8859_15);
    ("l9"%string, ISO_8859_15);
    ("iso-8859-16"%string, ISO_8859_16);
    ("cskoi8r"%string, KOI8_R);
    ("koi"%string, KOI8_R);
    ("koi8"%string, KOI8_R);
    ("koi8-r"%string, KOI8_R);
    ("koi8_r"%string, KOI8_R);
    ("koi8-ru"%string, KOI8_U);
    ("koi8-u"%string, KOI8_U);
    ("csmacintosh"%string, macintosh);
    ("mac"%string, macintosh);
    ("macintosh"%string, macintosh);
    ("x-mac-roman"%string, macintosh);
    ("dos-874"%string, windows_874);
    ("iso-8859-11"%string, windows_874);
    ("iso8859-11"%string, windows_874);
    ("iso885911"%string, windows_874);
    ("tis-620"%string, windows_874);
    ("windows-874"%string, windows_874);
    ("cp1250"%string, windows_1250);
    ("windows-1250"%string, windows_1250);
    ("x-cp1250"%string, windows_1250);
    ("cp1251"%string, windows_1251);
    ("windows-1251"%string, windows_1251);
    ("x-cp1251"%string, windows_1251);
    ("ansi_x3.4-1968"%string, windows_1252);
    ("ascii"%string, windows_1252);
    ("cp1252"%string, windows_1252);
    ("cp819"%string, windows_1252);
    ("csisolatin1"%string, windows_1252);
    ("ibm819"%string, windows_1252);
    ("iso-8859-1"%string, windows_1252);
    ("iso-ir-100"%string, windows_1252);
    ("iso8859-1"%string, windows_1252);
    ("iso88591"%string, windows_1252);
    ("iso_8859-1"%string, windows_1252);
    ("iso_8859-1:1987"%string, windows_1252);
    ("l1"%string, windows_1252);
    ("latin1"%string, windows_1252);
    ("us-ascii"%string, windows_1252);
    ("windows-1252"%string, windows_1252);
    ("x-cp1252"%string, windows_1252);
    ("cp1253"%string, windows_1253);
    ("windows-1253"%string, windows_1253);
    ("x-cp1253"%string, windows_1253);
    ("cp1254"%string, windows_1254);
    ("csisolatin5"%string, windows_1254);
    ("iso-8859-9"%string, windows_1254);
    ("iso-ir-148"%string, windows_1254);
    ("iso8859-9"%string, windows_1254);
    ("iso88599"%string, windows_1254);
    ("iso_8859-9"%string, windows_1254);
    ("iso_8859-9:1989"%string, windows_1254);
    ("l5"%string, windows_1254);
    ("latin5"%string, windows_1254);
    ("windows-1254"%string, windows_1254);
    ("x-cp1254"%string, windows_1254);
    ("cp1255"%string, windows_1255);
    ("windows-1255"%string, windows_1255);
    ("x-cp1255"%string, windows_1255);
    ("cp1256"%string, windows_1256);
    ("windows-1256"%string, windows_1256);
    ("x-cp1256"%string, windows_1256);
    ("cp1257"%string, windows_1257);
    ("windows-1257"%string, windows_1257);
    ("x-cp1257"%string, windows_1257);
    ("cp1258"%string, windows_1258);
    ("windows-1258"%string, windows_1258);
    ("x-cp1258"%string, windows_1258);
    ("x-mac-cyrillic"%string, x_mac_cyrillic);
    ("x-mac-ukrainian"%string, x_mac_cyrillic);
    ("chinese"%string, GBK);
    ("csgb2312"%string, GBK);
    ("csiso58gb231280"%string, GBK);
    ("gb2312"%string, GBK);
    ("gb_2312"%string, GBK);
    ("gb_2312-80"%string, GBK);
    ("gbk"%string, GBK);
    ("iso-ir-58"%string, GBK);
    ("x-gbk"%string, GBK);
    ("gb18030"%string, gb18030);
    ("big5"%string, Big5);
    ("big5-hkscs"%string, Big5);
    ("cn-big5"%string, Big5);
    ("csbig5"%string, Big5);
    ("x-x-big5"%string, Big5);
    ("cseucpkdfmtjapanese"%string, EUC_JP);
    ("euc-jp"%string, EUC_JP);
    ("x-euc-jp"%string, EUC_JP);
    ("csiso2022jp"%string, ISO_2022_JP);
    ("iso-2022-jp"%string, ISO_2022_JP);
    ("csshiftjis"%string, Shift_JIS);
    ("ms932"%string, Shift_JIS);
    ("ms_kanji"%string, Shift_JIS);
    ("shift-jis"%string, Shift_JIS);
    ("shift_jis"%string, Shift_JIS);
    ("sjis"%string, Shift_JIS);
    ("windows-31j"%string, Shift_JIS);
    ("x-sjis"%string, Shift_JIS);
    ("cseuckr"%string, EUC_KR);
    ("csksc56011987"%string, EUC_KR);
    ("euc-kr"%string, EUC_KR);
    ("iso-ir-149"%string, EUC_KR);
    ("korean"%string, EUC_KR);
    ("ks_c_5601-1987"%string, EUC_KR);
    ("ks_c_5601-1989"%string, EUC_KR);
    ("ksc5601"%string, EUC_KR);
    ("ksc_5601"%string, EUC_KR);
    ("windows-949"%string, EUC_KR);
    ("csiso2022kr"%string, replacement);
    ("hz-gb-2312"%string, replacement);
    ("iso-2022-cn"%string, replacement);
    ("iso-2022-cn-ext"%string, replacement);
    ("iso-2022-kr"%string, replacement);
    ("replacement"%string, replacement);
    ("utf-16be"%string, UTF_16BE);
    ("utf-16"%string, UTF_16LE);
    ("utf-16le"%string, UTF_16LE);
    ("x-user-defined"%string, x_user_defined)].

(** unordered_map::find; all keys are different, so the order does not matter. *)
Definition find_label (s : list Z) : option encoding_name :=
  option_map snd (find (fun e : list Z * encoding_name => if list_eq_dec Z.eq_dec (fst e) s then true else false)
                       encoding_label_map).

(** encoding.cpp:278-287; outer [None] is undefined behaviour, inner [None] is encoding_name 0. *)
Definition get_encoding_name (label : list Z) : option (option encoding_name) :=
  match strip_ws utf32 utf32 label with
  | None => None
  | Some tmp1 =>
      match to_ascii_lowercase utf32 utf32 tmp1 with
      | None => None
      | Some tmp2 => Some (find_label tmp2)
      end
  end.

(** encoding.hpp:171-220 *)
Definition get_encoding_label (name : encoding_name) : list Z :=
  lit match name with
      | UTF_8 => "utf-8"
      | IBM866 => "ibm866"
      | ISO_8859_2 => "iso-8859-2"
      | ISO_8859_3 => "iso-8859-3"
      | ISO_8859_4 => "iso-8859-4"
      | ISO_8859_5 => "iso-8859-5"
      | ISO_8859_6 => "iso-8859-6"
      | ISO_8859_7 => "iso-8859-7"
      | ISO_8859_8 => "iso-8859-8"
      | ISO_8859_8_I => "iso-8859-8-i"
      | ISO_8859_10 => "iso-8859-10"
      | ISO_8859_13 => "iso-8859-13"
      | ISO_8859_14 => "iso-8859-14"
      | ISO_8859_15 => "iso-8859-14"
      | ISO_8859_16 => "iso-8859-16"
      | KOI8_R => "koi8-r"
      | KOI8_U => "koi8-u"
      | macintosh => "macintosh"
      | windows_874 => "windows-874"
      | windows_1250 => "windows-1250"
      | windows_1251 => "windows-1251"
      | windows_1252 => "windows-1252"
      | windows_1253 => "windows-1253"
      | windows_1254 => "windows-1254"
      | windows_1255 => "windows-1255"
      | windows_1256 => "windows-1256"
      | windows_1257 => "windows-1257"
      | windows_1258 => "windows-1258"
      | x_mac_cyrillic => "x-mac-cyrillic"
      | GBK => "gbk"
      | gb18030 => "gb18030"
      | Big5 => "big5"
      | EUC_JP => "euc-jp"
      | ISO_2022_JP => "iso-2022-jp"
      | Shift_JIS => "shift_jis"
      | EUC_KR => "euc-kr"
      | replacement => "replacement"
      | UTF_16BE => "utf-16be"
      | UTF_16LE => "utf-16le"
      | x_user_defined => "x-user-defined"
      end%string.
