#!/usr/bin/env python3
"""Writes rocq/theories/Conform.v: every unit test of /repo replayed on the model."""
import struct, re
def f(x):
    w = struct.unpack('<I', struct.pack('<f', x))[0]
    return '(f32_of_bits %d)' % w
def cb(b):
    """bytes -> Coq term of type bytes"""
    out=[]; cur=''
    hexrun=[]
    def flush():
        nonlocal cur,hexrun
        if cur: out.append('lit "%s"' % cur.replace('"','""')); cur=''
        if hexrun: out.append('[%s]' % '; '.join(hexrun)); hexrun=[]
    for c in b:
        if 32<=c<127:
            if hexrun: flush()
            cur+=chr(c)
        else:
            if cur: flush()
            hexrun.append('x%02x'%c)
    flush()
    return '('+' ++ '.join(out)+')' if out else '[]'
def lines(*ls): return b'\n'.join(ls)
H=b"%PDF-1.7\n%\x80\x80\x80\x80\n"
o=[]
def ex(name,src,lhs,rhs): o.append('(** %s *)\nExample %s : %s = %s.\nProof. vm_compute. reflexivity. Qed.\n'%(src,name,lhs,rhs))
def prim(i,p,b): ex('test_primitive_objects_%d'%i,'src/object.rs:1617-1658 [test_primitive_objects]','obj_text true (OPrim (%s))'%p,cb(b))
S=lambda b:'PStr '+cb(b)
N=lambda b:'PName '+cb(b)
T=lambda s:'PText [%s]'%'; '.join(str(ord(c)) for c in s)
P=[('PBool true',b'true'),('PBool false',b'false'),('PInt 78',b'78'),('PReal '+f(4.22),b'4.22'),('PReal '+f(1.184e-7),b'0.0000001184'),('PReal '+f(4.2e13),b'42000000000000'),('PRef 7',b'7 0 R'),('PNull',b'null'),
(S(b"Hello, World!"),b"(Hello, World!)"),(S(b"()"),b"(())"),(S(b")()"),rb"(\)\(\))"),(S(b"()(())"),b"(()(()))"),(S(b"(()))"),rb"(\(\(\)\)\))"),(S(b"\\"),rb"(\\)"),(S(b"\n\ta"),rb"(\n\ta)"),(S(rb"\n"),rb"(\\n)"),(S(b"a\x14b"),rb"(a\024b)"),(S(b"\xff\xaa"),b"<FFAA>"),(S(b"\x0a\x7f\x1f"),rb"(\n\177\037)"),
(T("Hallo"),b"(Hallo)"),(T("\U0001F600!"),b"<FEFFD83DDE000021>"),
(N(b"Filter"),b"/Filter"),(N(b"A B"),b"/A#20B"),(N(b"~+c"),b"/~+c"),(N(b"/A-B"),b"/#2FA-B"),(N(b"<A>"),b"/#3CA#3E"),(N(b"#"),b"/#23"),(N(b"\n"),b"/#0A")]
for i,(p,b) in enumerate(P): prim(i+1,p,b)
D='[DMonth 3; DDay 17; DHour 1; DMinute 2; DSecond 3%s]'
dates=[('2021','[]',b"(D:2021)"),('2021','[DMonth 30]',b"(D:202112)"),('2020',D%'',b"(D:20200317010203)"),('2020',D%'; DOffHour 0',b"(D:20200317010203Z)"),('2020',D%'; DOffHour 4',b"(D:20200317010203+04'00)"),('2020',D%'; DOffHour (-17); DOffMinute 10',b"(D:20200317010203-17'10)")]
for i,(y,c,b) in enumerate(dates): ex('test_dates_%d'%(i+1),'src/object.rs:1661-1675 [test_dates]','obj_text true (OPrim (PDate (fold_left date_apply %s (date_new %s))))'%(c,y),cb(b))
i32=lambda n:'OPrim (PInt %d)'%n
A='src/object.rs:1678-1690 [test_arrays]'
ex('test_arrays_1',A,'obj_text true (OArray [])',cb(b'[]'))
ex('test_arrays_2',A,'obj_text true (OArray [%s; OPrim PNull])'%i32(12),cb(b'[12 null]'))
ex('test_arrays_3',A,'obj_text true (OArray [%s; %s; %s])'%(i32(1),i32(2),i32(3)),cb(b'[1 2 3]'))
ex('test_arrays_4',A,'obj_text true (OArray [OArray [%s; %s]; %s])'%(i32(1),i32(2),i32(3)),cb(b'[[1 2] 3]'))
A='src/object.rs:1693-1705 [test_dicts]'
ex('test_dicts_1',A,'obj_text true (ODict [])',cb(b'<<>>'))
ex('test_dicts_2',A,'obj_text true (ODict [(lit "Quality", OPrim (PName (lit "Good")))])',cb(b"<<\n  /Quality /Good\n>>"))
ex('test_dicts_3',A,'obj_text true (ODict [(lit "A", %s); (lit "B", %s)])'%(i32(1),i32(2)),cb(b"<<\n  /A 1\n  /B 2\n>>"))
def xr(*l): return b"".join(b"%010d %05d %s\r\n"%x for x in l)
ex('test_streams','src/object.rs:1708-1729 [test_streams]','finished [DocTyped 1 (Ck_stream %s [Typed (Stream_filter CryptFilter)])]'%cb(b"Hi there!"),
 'Some '+cb(lines(H,b"1 0 obj",b"<<\n  /Length 9\n  /Filter /Crypt\n>>",b"stream",b"Hi there!",b"endstream",b"endobj\n",b"xref",b"0 2",b"0000000000 65535 f\r",b"0000000016 00000 n\r",b"trailer",b"<<\n  /Size 2\n>>",b"startxref\n94\n%%EOF")))
A='src/object.rs:1732-1750 [test_arrays_no_pretty]'
ex('test_arrays_no_pretty_1',A,'obj_text false (OArray [])',cb(b'[]'))
ex('test_arrays_no_pretty_2',A,'obj_text false (OArray [%s; OPrim (%s); OPrim (%s); OPrim (PBool false); OPrim (%s); ODict [(lit "Test1", %s)]; OPrim PNull; OPrim (PReal %s)])'%(i32(12),N(b'Hi'),N(b'Hi2'),T('A string'),i32(23),f(23.40)),cb(b"[12/Hi/Hi2 false(A string)<</Test1 23>>null 23.4]"))
A='src/object.rs:1753-1770 [test_dicts_no_pretty]'
ex('test_dicts_no_pretty_1',A,'obj_text false (ODict [])',cb(b'<<>>'))
ex('test_dicts_no_pretty_2',A,'obj_text false (ODict [(lit "Key1", %s); (lit "Key2", OPrim (%s)); (lit "Key3", OPrim (PBool false)); (lit "Key4", OPrim (%s)); (lit "Key5", OArray [%s; OPrim (%s)]); (lit "Key6", OPrim PNull); (lit "Key7", OPrim (PReal %s))])'%(i32(12),N(b'Hi'),T('A string'),i32(23),N(b'Value'),f(23.40)),cb(b"<</Key1 12/Key2/Hi/Key3 false/Key4(A string)/Key5[23/Value]/Key6 null/Key7 23.4>>"))
# lib.rs
ex('test_minimal','src/lib.rs:653-662','finished []','Some '+cb(lines(H,b"xref\n0 1\n0000000000 65535 f\r",b"trailer\n<<\n  /Size 1\n>>",b"startxref\n16\n%%EOF")))
I=lambda n,v:'DocOther (PdfObject %d (%s))'%(n,i32(v))
ob=lambda n,v:b"%d 0 obj\n%d\nendobj\n"%(n,v)
ex('test_xref_free_list_short','src/lib.rs:664-683','finished [%s; %s]'%(I(1,1),I(2,2)),'Some '+cb(lines(H,ob(1,1),ob(2,2),b"xref",b"0 3",b"0000000000 65535 f\r",b"0000000016 00000 n\r",b"0000000034 00000 n\r",b"trailer",b"<<\n  /Size 3\n>>",b"startxref\n52\n%%EOF")))
ex('test_xref_free_list_long','src/lib.rs:685-710','finished [DocOther (PdfVersion 1 4); %s; %s; %s]'%(I(1,1),I(2,2),I(5,5)),'Some '+cb(lines(b"%PDF-1.4\n%\x80\x80\x80\x80\n",ob(1,1),ob(2,2),ob(5,5),b"xref",b"0 6",b"0000000003 65535 f\r",b"0000000016 00000 n\r",b"0000000034 00000 n\r",b"0000000004 00000 f\r",b"0000000000 00000 f\r",b"0000000052 00000 n\r",b"trailer",b"<<\n  /Size 6\n>>",b"startxref\n70\n%%EOF")))
ex('test_xref_free_list_duplicate','src/lib.rs:712-722: panics','finished [%s; %s; %s; %s; %s]'%(I(3,1),I(5,2),I(13,1),I(3,1),I(6,2)),'None')
ex('test_binary_marker','src/lib.rs:724-735','finished [DocOther (PdfMarker (x41, x42, x43, x44))]','Some '+cb(lines(b"%PDF-1.7\n%ABCD\n",b"xref\n0 1\n0000000000 65535 f\r",b"trailer\n<<\n  /Size 1\n>>",b"startxref\n16\n%%EOF")))
ex('test_field_width','src/lib.rs:737-745 [field_width]','map field_width [128; 255; 256; 65535; 65536; 4294967295]','[1; 1; 2; 2; 3; 4]')
xd=bytes([0,3,255,255,1,0x10,0,0,1,0x22,0,0,0,4,0,0,0,0,0,0,1,0x34,0,0,1,0x46,0,0])
ex('test_xref_stream','src/lib.rs:747-766','finished_stream 6 [%s; %s; %s]'%(I(1,1),I(2,2),I(5,5)),'Some '+cb(lines(H,ob(1,1),ob(2,2),ob(5,5),b"6 0 obj\n<<\n  /Length 28\n  /Type /XRef\n  /Size 7\n  /W [1 1 2]\n>>\nstream",xd,b"endstream\nendobj\n",b"startxref\n70\n%%EOF")))
ex('test_xref_stream_single_filter','src/lib.rs:768-781','finished_filter 2 (fun _ => (lit "ABCDEFGH", Single FlateDecode)) [%s]'%I(1,1),'Some '+cb(lines(H,ob(1,1),b"2 0 obj\n<<\n  /Length 8\n  /Type /XRef\n  /Filter /FlateDecode\n  /Size 3\n  /W [1 1 2]\n>>\nstream",b"ABCDEFGH",b"endstream\nendobj\n",b"startxref\n34\n%%EOF")))
ex('test_xref_stream_multiple_filters','src/lib.rs:783-796','finished_filter 2 (fun _ => (lit "ABCDEFGH", Multiple [AsciiHexDecode; FlateDecode])) [%s]'%I(1,1),'Some '+cb(lines(H,ob(1,1),b"2 0 obj\n<<\n  /Length 8\n  /Type /XRef\n  /Filter [/ASCIIHexDecode /FlateDecode]\n  /Size 3\n  /W [1 1 2]\n>>\nstream",b"ABCDEFGH",b"endstream\nendobj\n",b"startxref\n34\n%%EOF")))
ex('test_xref_width2','src/lib.rs:798-813','finished_stream 3 [DocTyped 1 (Ck_stream (repeat x30 256) []); %s]'%I(2,1),'Some ('+cb(lines(H,b"1 0 obj\n<<\n  /Length 256\n>>\nstream\n"))+' ++ repeat x30 256 ++ '+cb(lines(b"\nendstream\nendobj\n",ob(2,1),b"3 0 obj\n<<\n  /Length 20\n  /Type /XRef\n  /Size 4\n  /W [1 2 2]\n>>\nstream",b"\x00\x00\x00\xFF\xFF\x01\x00\x10\x00\x00\x01\x01\x46\x00\x00\x01\x01\x58\x00\x00",b"endstream\nendobj\n",b"startxref\n344\n%%EOF"))+')')
# chunk.rs
ex('test_chunk','src/chunk.rs:507-533: the chunk is filled while the writer of the font is open; the model writes the chunk first',
 'match chunk_of 2 (Ck_font_descriptor [Fd_name (lit "MyFont")]) with Some c => finished [DocTyped 1 (Ck_type3_font [Typed (Type3Font_font_descriptor 2)]); DocOther (PdfExtend c)] | None => None end',
 'Some '+cb(lines(H,b"1 0 obj",b"<<\n  /Type /Font\n  /Subtype /Type3\n  /FontDescriptor 2 0 R\n>>",b"endobj\n",b"2 0 obj",b"<<\n  /Type /FontDescriptor\n  /FontName /MyFont\n>>",b"endobj\n",b"xref",b"0 3",b"0000000000 65535 f\r",b"0000000016 00000 n\r",b"0000000094 00000 n\r",b"trailer",b"<<\n  /Size 3\n>>",b"startxref\n160\n%%EOF")))
# annotations.rs
R=lambda a,b,c,d:'(mkRect %s %s %s %s)'%(f(a),f(b),f(c),f(d))
ex('test_annotations','src/annotations.rs:796-819',
 'match doc_run [DocTyped 1 (Ck_annotation [Typed (Annotation_rect %s)]); DocTyped 2 (Ck_annotation [Typed (Annotation_rect %s)])] pdf_new with Some p => Some (skipn 16 (chunk_bytes (p_chunk p))) | None => None end'%(R(0,0,1,1),R(1,1,0,0)),
 'Some '+cb(lines(b"1 0 obj",b"<<",b"  /Type /Annot",b"  /Rect [0 0 1 1]",b">>",b"endobj\n",b"2 0 obj",b"<<",b"  /Type /Annot",b"  /Rect [1 1 0 0]",b">>",b"endobj\n\n")))
# buf.rs
pm='ModelContent.'
C=lambda n,*a:'('+' '.join([pm+n]+list(a))+')'
L=lambda s:cb(s) 
ex('test_content_limits','src/buf.rs:236-275',
 'merge_all [content_limits true [%s]; content_limits true [%s]]'%(
 '; '.join([C('CCubicTo',*[f(x) for x in (14.3,16.2,22.6,30.9,50.1,40.0)]),C('CShow',L(b'Some text')),C('CSetFont',L(b'NotoSans'),f(10.0))]),
 '; '.join([C('CLineTo',f(55.0),f(-75.3)),C('CSetFont',L(b'Noto'),f(10.0)),C('CShowPositioned','[%sShow %s; %sShow %s; %sAdjust %s]'%(pm,L(b'A'),pm,L(b'B'),pm,f(32.0))),
   C('CMarkedContentPointWithProperties',L(b'Hi'),'(%sMarkDict (writer_list [] PropertyList_entries [Typed (PropertyList_actual_text (TextPlain [116; 101; 120; 116]))]))'%pm)])),
 'Some (mkLimits 55 %s 10 9 3 1)'%f(75.3))
ex('test_chunk_limits','src/buf.rs:277-297','match doc_run [DocTyped 1 (Ck_form_xobject [] [STyped (FormXObject_bbox %s)])] pdf_new with Some p => Some (merge limits0 (chunk_limits (p_chunk p))) | None => None end'%R(4.0,6.0,22.1,31.0),'Some (mkLimits 31 %s 7 0 4 4)'%f(22.1))
# content.rs
ex('test_content_encoding','src/content.rs:1733-1749','content_text true [%s]'%'; '.join([C('CSaveState'),C('CRect',f(1.0),f(2.0),f(3.0),f(4.0)),C('CFillNonzero'),C('CSetDashPattern','[%s; %s]'%(f(7.0),f(2.0)),f(4.0)),C('CXObject',L(b'MyImage')),C('CSetFillPattern','[%s; %s]'%(f(2.0),f(3.5)),L(b'MyPattern')),C('CRestoreState')]),'Some '+cb(b"q\n1 2 3 4 re\nf\n[7 2] 4 d\n/MyImage Do\n2 3.5 /MyPattern scn\nQ"))
pos=lambda *l:C('CShowPositioned','['+'; '.join(pm+('Show '+L(x) if isinstance(x,bytes) else 'Adjust '+f(x)) for x in l)+']')
ex('test_content_text','src/content.rs:1751-1771','content_text true [%s]'%'; '.join([C('CSetFont',L(b'F1'),f(12.0)),C('CBeginText'),pos(),pos(b'AB',2.0,b'CD'),C('CEndText')]),'Some '+cb(b"/F1 12 Tf\nBT\n[] TJ\n[(AB) 2 (CD)] TJ\nET"))
ex('test_content_array_no_pretty','src/content.rs:1773-1795','content_text false [%s]'%'; '.join([C('CSetFont',L(b'F1'),f(12.0)),C('CSetFont',L(b'F2'),f(15.0)),C('CBeginText'),pos(),pos(b'AB',2.0,b'CD',4.0,b'EF'),C('CEndText')]),'Some '+cb(b"/F1 12 Tf/F2 15 Tf\nBT[]TJ[(AB)2(CD)4(EF)]TJ\nET"))
ex('test_content_dict_no_pretty','src/content.rs:1797-1809','content_text false [%s]'%C('CBeginMarkedContentWithProperties',L(b'Test'),'(%sMarkDict (writer_list [] PropertyList_entries [Typed (PropertyList_actual_text (TextPlain [%s])); Typed (PropertyList_identify 1); Typed (PropertyList_artifact [Typed (Artifact_kind ArtifactType_Background)])]))'%(pm,'; '.join(str(ord(c)) for c in 'Actual'))),'Some '+cb(b"/Test<</ActualText(Actual)/MCID 1/Type/Background>>BDC"))
# functions.rs
ex('test_post_script_encoding','src/functions.rs:434-453','inner (ps_encode [PsReal %s; PsReal %s; PsSimple PsMul; PsSimple PsExch; PsSimple PsDup; PsReal %s; PsSimple PsGe; PsIfElse [PsReal %s; PsSimple PsAdd] [PsSimple PsNeg]; PsSimple PsAdd])'%(f(3.0),f(2.0),f(0.0),f(1.0)),cb(b"{ 3.0 2.0 mul exch dup 0.0 ge { 1.0 add } {neg} ifelse add }"))
# structure.rs
ex('test_max_heading_name','src/structure.rs:2394-2399','StructRole2_name (StructRole2_Heading 65535)','Some '+cb(b'H65535'))
# renumber.rs
untidy=b"8  3  obj\n<</Fmt false/Niceness(4 0\nR-)"+b"/beginobj/endobj%4 0 R\n"+b"/Me 8 3  R/Unknown 11 0  R/R[4  0\nR]>>%\n\nendobj"
ref=lambda n:'OPrim (PRef %d)'%n
first='ODict [(lit "Nested", ODict [(lit "stream", OPrim (PBool true)); (lit "Nonself", %s); (lit "R", OPrim (PBool false)); (lit "Safe", %s); (lit "False", OPrim (%s)); (lit "Unsafe", %s); (lit "Unsafe", OPrim (%s))])]'%(ref(8),i32(10),T("17 0 R"),ref(17),T("()(And (More) 17 0 R())"))
o.append('''(** src/renumber.rs:176-200: an object, an untidy object that no writer makes, and a stream. *)
Definition untidy_chunk : option chunk :=
  let c := chunk_object 4 (%s) chunk_new in
  let c := mkChunk (extend %s (c_buf c)) (c_offsets c ++ [(8, chunk_len c)]) (c_pretty c) in
  chunk_stream 17 [(lit "Ok", OPrim (%s)); (lit "Self", %s)] %s c.
(** src/renumber.rs:202-210. *)
Definition but_11 (t : memo_state) (old : Z) : Z * memo_state := if old =? 11 then (old, t) else memo t old.
'''%(first,cb(untidy),T(')4 0 R'),ref(17),cb(b"1 0 R 2 0 R 3 0 R 4 0 R")))
ex('test_renumber','src/renumber.rs:212-243','match untidy_chunk with Some c => match chunk_renumber but_11 c ([], 1) with Some (r, _) => Some (chunk_bytes r) | None => None end | None => None end',
 'Some '+cb(lines(b"1 0 obj",b"<<",b"  /Nested <<",b"    /stream true",b"    /Nonself 2 0 R",b"    /R false",b"    /Safe 10",b"    /False (17 0 R)",b"    /Unsafe 3 0 R",b"    /Unsafe (()(And (More) 17 0 R()))",b"  >>",b">>",b"endobj",b"",b"2 3 obj",b"<</Fmt false/Niceness(4 0",b"R-)/beginobj/endobj%4 0 R",b"/Me 2 3 R/Unknown 11 0 R/R[1 0 R]>>%",b"endobj",b"",b"3 0 obj",b"<<",b"  /Length 23",b"  /Ok (\\)4 0 R)",b"  /Self 3 0 R",b">>",b"stream",b"1 0 R 2 0 R 3 0 R 4 0 R",b"endstream",b"endobj\n\n")))
# examples/hello.rs
o.append("""(** examples/hello.rs, and the documentation's minimal example (src/lib.rs:47-66): a reader finds the page and what is on it. *)
Definition hello_content : list ModelContent.ccall := [ModelContent.CBeginText; ModelContent.CSetFont (lit "F1") %s;
  ModelContent.CNextLine %s %s; ModelContent.CShow (lit "Hello World from Rust!"); ModelContent.CEndText].
Definition hello : list doc_op := [
  DocCatalog 1 [Typed (Catalog_pages 2)];
  DocTyped 2 (Ck_pages [Typed (Pages_kids [3]); Typed (Pages_count 1)]);
  DocTyped 3 (Ck_page [Typed (Page_media_box %s); Typed (Page_parent 2); Typed (Page_contents 5); Typed (Page_annotations [6]);
    Typed (Page_resources [Typed (Resources_fonts [(lit "F1", OPrim (PRef 4))])])]);
  DocTyped 6 (Ck_annotation [Typed (Annotation_subtype AnnotationType_Link); Typed (Annotation_rect %s);
    Typed (Annotation_contents (TextPlain (map bz (lit "Link to the Rust project web page")))); Typed (Annotation_color_rgb %s %s %s);
    Typed (Annotation_action [Typed (Action_action_type ActionType_Uri); Typed (Action_uri (lit "https://www.rust-lang.org/"))]);
    Typed (Annotation_border_style [Typed (BorderStyle_width %s); Typed (BorderStyle_style BorderType_Underline)])]);
  DocTyped 4 (Ck_type1_font [Typed (Type1Font_base_font (lit "Helvetica"))]);
  DocTyped 5 (Ck_stream (match content_text true hello_content with Some s => s | None => [] end) [])].
Definition minimal : list doc_op := [
  DocCatalog 1 [Typed (Catalog_pages 2)];
  DocTyped 2 (Ck_pages [Typed (Pages_kids [3]); Typed (Pages_count 1)]);
  DocTyped 3 (Ck_page [Typed (Page_parent 2); Typed (Page_media_box %s); Typed (Page_resources [])])].
"""%(f(14.0),f(108.0),f(734.0),R(0,0,595,842),R(215,730,251,748),f(0),f(0),f(1),f(2.0),R(0,0,595,842)))
ex('example_hello','The page with its operations','match finished hello with Some file => read_pages (fun _ d => Some d) 3 file | None => None end',
 'Some [[([], lit "BT"); ([VName (lit "F1"); VInt 14], lit "Tf"); ([VInt 108; VInt 734], lit "Td"); ([VStr (lit "Hello World from Rust!")], lit "Tj"); ([], lit "ET")]]')
ex('example_minimal','An empty page','match finished minimal with Some file => read_pages (fun _ d => Some d) 3 file | None => None end','Some [[]]')
head='''(** The unit tests of /repo, replayed on the model.  These are tests of the model (that it does what the code does where the
    code's authors wrote down what it does), not proofs of properties.  Written by gen/conform.py. *)

From Coq Require Import ZArith List Bool.
From Verif Require ModelContent.
From Verif Require Import Bytes ModelFloat ModelBuf ModelObject ModelRenumber ModelChunk ModelColor ModelSmall ModelPdf ModelTw ModelEnums ModelRoles ModelTwArgs
  ModelTwFiles ModelTwGraphics ModelTwAnnot ModelTwForms ModelTwAttr ModelTwXObj ModelTwFonts ModelTwDoc ModelFontDesc ModelDoc ModelPart ModelPs SpecObj SpecChunk SpecPages.
Import ListNotations.
Local Open Scope Z_scope.

(** src/lib.rs:623-650 [slice_obj]: the text of an object without [1 0 obj] and [endobj]. *)
Definition obj_text (pretty : bool) (o : obj) : bytes :=
  let c := chunk_bytes (chunk_object 1 o (chunk_with_settings pretty)) in
  firstn (length c - 8 - (if pretty then 9 else 8)) (skipn 8 c).
Definition finished (ops : list doc_op) : option bytes := match doc_run ops pdf_new with Some p => finish p | None => None end.
Definition finished_stream (id : Z) (ops : list doc_op) : option bytes :=
  match doc_run ops pdf_new with Some p => finish_with_xref_stream p id | None => None end.
Definition finished_filter (id : Z) (f : bytes -> bytes * xref_filter) (ops : list doc_op) : option bytes :=
  match doc_run ops pdf_new with Some p => finish_with_xref_stream_and_filter p id f | None => None end.
Definition chunk_of (id : Z) (c : chunk_call) : option hist :=
  match chunk_call_body c with Some (BObj o) => Some (HObject (HNew true) id o) | _ => None end.
Definition content_text (pretty : bool) (calls : list ModelContent.ccall) : option bytes :=
  option_map (fun c => inner (ModelContent.content_finish c)) (ModelContent.content_run calls (ModelContent.content_with_settings pretty)).
Definition content_limits (pretty : bool) (calls : list ModelContent.ccall) : option limits :=
  option_map (fun c => lims (ModelContent.content_finish c)) (ModelContent.content_run calls (ModelContent.content_with_settings pretty)).
Fixpoint merge_all_from (l : limits) (ls : list (option limits)) : option limits :=
  match ls with [] => Some l | Some o :: r => merge_all_from (merge l o) r | None :: _ => None end.
Definition merge_all : list (option limits) -> option limits := merge_all_from limits0.

'''
open('/verif/rocq/theories/Conform.v','w').write(head+'\n'.join(o))
