# Writes SpecRename.v (the call that a typed call becomes when all object numbers in its arguments are renamed) and
# ProofRename.v, from the same tables as gen_writers.py.
import re,sys
sys.path.insert(0,'/verif/gen')
import gen_writers as W
H=W.H; OUT=W.OUT
names={}
for k,v in W.kinds.items(): names.setdefault(id(v),[]).append(k)
def ren(k,x):
    ks=names[id(k)]
    assert len(ks)==1,ks
    n=ks[0]
    if n=='Ref': return f'(g {x})'
    if n=='iter Ref': return f'(map g {x})'
    if n=='Dict': return f'(map_entries g {x})'
    if n=='Obj': return f'(map_refs g {x})'
    if n=='TypedArray Dict': return f'(map (map_entries g) {x})'
    if n=='TypedDict Ref': return f'(ren_dict g {x})'
    if n=='NameTree': return f'(map (ren_name_tree g) {x})'
    if n=='NumberTree': return f'(map (ren_number_tree g) {x})'
    if n=='ColorSpace': return f'(ren_cs g {x})'
    if n=='AppearanceEntry': return f'(ren_AppearanceEntry g {x})'
    if n in H.WRITERS: return f'({n}_ren g {x})' if n in RENS else x
    m=re.match(r'TypedArray (\w+)$',n)
    if m and m.group(1) in H.WRITERS: return f'(map ({m.group(1)}_ren g) {x})'
    m=re.match(r'TypedDict (\w+)$',n)
    if m and m.group(1) in H.WRITERS: return f'(ren_dict ({m.group(1)}_ren g) {x})'
    return x
RENS=set(H.WRITERS)
HEADM='''From Coq Require Import ZArith List Bool.
From Verif Require ModelContent ModelCmap.
From Verif Require Import Bytes ModelFloat ModelBuf ModelObject ModelChunk ModelColor ModelSmall ModelPdf ModelTw ModelEnums ModelRoles ModelTwArgs
  ModelTwFiles ModelTwGraphics ModelTwAnnot ModelTwForms ModelTwAttr ModelTwXObj ModelTwFonts ModelTwDoc ModelFontDesc ModelDoc
'''
sp=['''(** Specification: renaming object numbers in calls.  [X_ren g calls] are the same calls with the same arguments, except that every
    [Ref] among them is replaced by its image under [g].  Generated by gen/gen_rename.py from the table of the writers' arguments. *)
''',HEADM.rstrip()+'''
  SpecRenum SpecChunk.
Import ListNotations.
Local Open Scope Z_scope.

(** ** Arguments *)

Definition ren_dict {A B} (f : A -> B) (l : list (bytes * A)) : list (bytes * B) := map (fun e => (fst e, f (snd e))) l.
Definition ren_prim (g : Z -> Z) (p : prim) : prim := match p with PRef r => PRef (g r) | p => p end.
Definition ren_raw {C} (g : Z -> Z) (f : C -> C) (c : or_raw C) : or_raw C :=
  match c with Typed c => Typed (f c) | Raw k o => Raw k (map_refs g o) end.
Definition ren_item {C} (g : Z -> Z) (f : C -> C) (c : or_item C) : or_item C :=
  match c with TypedItem c => TypedItem (f c) | RawItem o => RawItem (map_refs g o) end.
Definition ren_stream {S C} (g : Z -> Z) (fs : S -> S) (f : C -> C) (c : or_stream S C) : or_stream S C :=
  match c with STyped c => STyped (f c) | SStream s => SStream (fs s) | SRaw k o => SRaw k (map_refs g o) end.
Definition ren_name_tree (g : Z -> Z) (c : name_tree_call) : name_tree_call :=
  match c with
  | NtKids l => NtKids (map g l)
  | NtNames es => NtNames (ren_dict (ren_prim g) es)
  | NtLimits a b => NtLimits a b
  end.
Definition ren_number_tree (g : Z -> Z) (c : number_tree_call) : number_tree_call :=
  match c with
  | MtKids l => MtKids (map g l)
  | MtNums es => MtNums (map (fun e => (fst e, ren_prim g (snd e))) es)
  | MtLimits a b => MtLimits a b
  end.
Definition ren_AppearanceEntry (g : Z -> Z) (c : AppearanceEntry_call) : AppearanceEntry_call :=
  match c with
  | AppearanceEntry_stream id => AppearanceEntry_stream (g id)
  | AppearanceEntry_streams l => AppearanceEntry_streams (ren_dict g l)
  end.

(** ** Color spaces *)

Definition ren_stitch (g : Z -> Z) (c : stitch_call) : stitch_call :=
  match c with StFunctions l => StFunctions (map g l) | c => c end.
Fixpoint ren_cs (g : Z -> Z) (c : cs) : cs :=
  match c with
  | CsIccBased r => CsIccBased (g r)
  | CsSeparation n l => CsSeparation n (map (ren_part g) l)
  | CsDeviceN ns l => CsDeviceN ns (map (ren_part g) l)
  | c => c
  end
with ren_part (g : Z -> Z) (p : part) : part :=
  match p with
  | AlternateSpace c => AlternateSpace (ren_cs g c)
  | AlternateRef r => AlternateRef (g r)
  | TintStitching l => TintStitching (map (ren_stitch g) l)
  | TintRef r => TintRef (g r)
  | Attrs l => Attrs (map (ren_attr g) l)
  | p => p
  end
with ren_attr (g : Z -> Z) (a : attr_call) : attr_call :=
  match a with
  | AtColorants l => AtColorants (ren_dict (map_entries g) l)
  | AtProcess l => AtProcess (map (ren_proc g) l)
  | a => a
  end
with ren_proc (g : Z -> Z) (p : proc_call) : proc_call :=
  match p with PrColorSpaceArray c => PrColorSpaceArray (ren_cs g c) | p => p end.
Definition ren_icc (g : Z -> Z) (c : icc_call) : icc_call :=
  match c with IccAlternate c => IccAlternate (ren_cs g c) | IccMetadata r => IccMetadata (g r) | c => c end.

(** ** Font descriptors *)

Fixpoint ren_fd (g : Z -> Z) (c : fd_call) : fd_call :=
  match c with
  | Fd_font_file id => Fd_font_file (g id)
  | Fd_font_file2 id => Fd_font_file2 (g id)
  | Fd_font_file3 id => Fd_font_file3 (g id)
  | Fd_cid_set id => Fd_cid_set (g id)
  | Fd_override calls => Fd_override (map (ren_ov g) calls)
  | Fd_raw key o => Fd_raw key (map_refs g o)
  | c => c
  end
with ren_ov (g : Z -> Z) (c : ov_call) : ov_call :=
  match c with
  | Ov_custom_class class calls => Ov_custom_class class (map (ren_fd g) calls)
  | Ov_custom_class_ref class id => Ov_custom_class_ref class (g id)
  | Ov_cjk_class class calls => Ov_cjk_class class (map (ren_fd g) calls)
  | Ov_cjk_class_ref class id => Ov_cjk_class_ref class (g id)
  | Ov_raw key o => Ov_raw key (map_refs g o)
  end.

(** ** The typed writers *)
''']
pr=[]
for grp,ws in H.GROUPS:
    for X in ws:
        w=W.WR[X]; ms=W.methods(X)
        noraw=w.get('noraw',False); array=w.get('array',False); stream=w.get('stream',False); plain=w.get('plain',False); partial=w.get('partial',False)
        reserved={'call','calls','entries','obj','doc','head','header','ok','call_ok','reads','allowed','call_allowed','sample','items','dict'}
        lines=[]; same=[]
        for m in ms:
            c=f'{X}_{m.name+"_m" if m.name in reserved else m.name}'
            r=[ren(k,n) for n,k in m.args]
            if [n for n,_ in m.args]==r: same.append(c); continue
            pat=' '.join([c]+[n if n!=q else n for (n,_),q in zip(m.args,r)])
            lines.append(f'  | {pat} => {" ".join([c]+r)}')
        if lines:
            body='\n'.join(lines)+('\n  | c => c' if same else '')
            sp.append(f'Definition {X}_ren_call (g : Z -> Z) (c : {X}_call) : {X}_call :=\n  match c with\n{body}\n  end.')
        else: sp.append(f'Definition {X}_ren_call (g : Z -> Z) (c : {X}_call) : {X}_call := c.')
        if array: f=f'map (ren_item g ({X}_ren_call g)) cs'
        elif stream: f=f'map (ren_stream g (Stream_ren_call g) ({X}_ren_call g)) cs'
        elif noraw: f=f'map ({X}_ren_call g) cs'
        else: f=f'map (ren_raw g ({X}_ren_call g)) cs'
        sp.append(f'Definition {X}_ren (g : Z -> Z) (cs : {X}_calls) : {X}_calls := {f}.')
        opt=partial or stream or plain
        E='items' if array else 'entries'
        if array:
            pr.append(f'Lemma {X}_ren_items g c : {X}_items ({X}_ren_call g c) = map (map_refs g) ({X}_items c).\nProof. destruct c; cbn [{X}_@E@ {X}_ren_call]; ren_call. Qed.'.replace('@E@',E))
            pr.append(f'Lemma {X}_ren_obj g cs : {X}_obj ({X}_ren g cs) = map_refs g ({X}_obj cs).\nProof. apply ren_array. apply {X}_ren_items. Qed.\n#[export] Hint Rewrite {X}_ren_obj : ren.')
        elif opt:
            pr.append(f'Lemma {X}_ren_entries g c : {X}_entries ({X}_ren_call g c) = option_map (map_entries g) ({X}_entries c).\nProof. destruct c; cbn [{X}_@E@ {X}_ren_call]; ren_call_opt. Qed.'.replace('@E@',E))
            if stream: pr.append(f'Lemma {X}_ren_dict g cs : {X}_dict ({X}_ren g cs) = option_map (map_entries g) ({X}_dict cs).\nProof. apply ren_stream_writer; [reflexivity|apply Stream_ren_entries|apply {X}_ren_entries]. Qed.')
            elif plain: pr.append(f'Lemma {X}_ren_dict g cs : {X}_dict ({X}_ren g cs) = option_map (map_entries g) ({X}_dict cs).\nProof. apply ren_list_opt; [reflexivity|apply {X}_ren_entries]. Qed.')
            else: pr.append(f'Lemma {X}_ren_obj g cs : {X}_obj ({X}_ren g cs) = option_map (map_refs g) ({X}_obj cs).\nProof. apply ren_writer_opt@N@; [reflexivity|apply {X}_ren_entries]. Qed.\n#[export] Hint Rewrite {X}_ren_obj : ren.'.replace('@N@','_noraw' if noraw else ''))
        else:
            pr.append(f'Lemma {X}_ren_entries g c : {X}_entries ({X}_ren_call g c) = map_entries g ({X}_entries c).\nProof. destruct c; cbn [{X}_@E@ {X}_ren_call]; ren_call. Qed.'.replace('@E@',E))
            pr.append(f'#[export] Hint Resolve {X}_ren_entries : renl.')
            tac='apply ren_writer' if not noraw else 'apply ren_writer_noraw'
            pr.append(f'Lemma {X}_ren_obj g cs : {X}_obj ({X}_ren g cs) = map_refs g ({X}_obj cs).\nProof. {tac}; [reflexivity|apply {X}_ren_entries]. Qed.\n#[export] Hint Rewrite {X}_ren_obj : ren.')
        pr.append(f'Lemma {X}_ren_call_ok g c : keeps g -> {X}_call_ok c = true -> {X}_call_ok ({X}_ren_call g c) = true.\nProof. intro G. destruct c; cbn [{X}_call_ok {X}_ren_call]; ren_ok. Qed.')
        lem='ren_items_ok' if array else 'ren_streams_ok' if stream else 'ren_noraw_ok' if noraw else 'ren_raws_ok'
        extra='[exact G|intros c; apply Stream_ren_call_ok; exact G|intros c; apply @_ren_call_ok; exact G]' if stream else '[exact G|intros c; apply @_ren_call_ok; exact G]'
        if noraw: extra='intros c; apply @_ren_call_ok; exact G'
        pr.append(f'Lemma {X}_ren_ok g cs : keeps g -> {X}_ok cs = true -> {X}_ok ({X}_ren g cs) = true.\nProof. intro G. apply {lem}; {extra.replace("@",X)}. Qed.\n#[export] Hint Resolve {X}_ren_ok : renok.\n')
# chunk calls
src=open(OUT+'ModelDoc.v').read()
blk=src[src.index('Inductive chunk_call'):src.index('Definition chunk_call_body')]
lines=[]
for m in re.finditer(r'^\| (\w+)((?: \(\w+ : [^\n]*?\))+)\.?$',blk,re.M):
    c=m.group(1); args=re.findall(r'\((\w+) : (.*?)\)(?= \(\w+ :|$)',m.group(2))
    out=[]
    for n,t in args:
        if t=='bytes': out.append(n)
        elif re.match(r'\w+_calls$',t): out.append(f'({t[:-6]}_ren g {n})')
        elif t=='list (bytes * Destination_calls)': out.append(f'(ren_dict (Destination_ren g) {n})')
        elif t=='list fd_call': out.append(f'(map (ren_fd g) {n})')
        elif t=='cs': out.append(f'(ren_cs g {n})')
        elif t=='list (or_stream Stream_call icc_call)': out.append(f'(map (ren_stream g (Stream_ren_call g) (ren_icc g)) {n})')
        elif t=='list name_tree_call': out.append(f'(map (ren_name_tree g) {n})')
        elif t=='list number_tree_call': out.append(f'(map (ren_number_tree g) {n})')
        else: raise Exception(t)
    lines.append(f'  | {" ".join([c]+[n for n,_ in args])} => {" ".join([c]+out)}')
assert len(lines)==37,len(lines)
sp.append('''
(** ** Typed constructors *)

(** The data of a stream is not touched. *)
Definition chunk_call_ren (g : Z -> Z) (c : chunk_call) : chunk_call :=
  match c with
'''+'\n'.join(lines)+'\n  end.\n')
open(OUT+'SpecRename.v','w').write('\n'.join(sp))
base=open('/verif/gen/rename_base.txt').read(); tail=open('/verif/gen/rename_tail.txt').read()
open(OUT+'ProofRename.v','w').write(base+'\n'.join(pr)+tail)
