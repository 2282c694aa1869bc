#!/usr/bin/env python3
"""Generates ModelDoc.v, SpecDoc.v and ProofDoc.v: the typed constructors of Chunk (src/chunk.rs:253-493)."""
import re
SRC=open('/repo/src/chunk.rs').read().split('\n')
T='/verif/rocq/theories/'
groups=['Files','Graphics','Annot','Forms','Attr','XObj','Fonts','Doc']
models={g:open(T+f'ModelTw{g}.v').read() for g in groups}
def kind(W):
    for g in groups:
        if f'Definition {W}_dict ' in models[g]: return 'stream'
        m=re.search(rf'Definition {W}_obj \(cs : {W}_calls\) : (option obj|obj)',models[g])
        if m: return 'opt' if m.group(1)=='option obj' else 'obj'
rows=[]  # name, cite, kind, type, obj expr, reads, ok, allowed, good lemma
i=252
while i<len(SRC):
    m=re.match(r"    pub fn (\w+)",SRC[i])
    if m and i<495:
        n=m.group(1); j=i
        while SRC[j]!='    }': j+=1
        body=' '.join(x.strip() for x in SRC[i:j+1])
        W=re.search(r"-> (\w+)<",body).group(1); cite=f'src/chunk.rs:{i+1}-{j+1}'
        stream='self.stream(' in body
        if n=='destinations': r=('obj','list (bytes * Destination_calls)','dict_of Destination_obj calls','is_dict_of Destination_reads calls','dict_ok Destination_ok calls','True','good_dict_of Destination_obj Destination_reads Destination_ok _ good_Destination')
        elif n=='font_descriptor': r=('obj','list fd_call','fd_obj calls','fd_reads calls','fd_ok calls','True','good_fd')
        elif n=='color_space': r=('opt','cs','cs_obj calls','cs_reads calls','cs_ok calls','cs_allowed calls','good_cs')
        elif n=='name_tree': r=('obj','list name_tree_call','name_tree_obj calls','is_name_tree calls','forallb name_tree_ok calls','True','good_name_tree')
        elif n=='number_tree': r=('obj','list number_tree_call','number_tree_obj calls','is_number_tree calls','forallb number_tree_ok calls','True','good_number_tree')
        elif n=='icc_profile': r=('stream','list (or_stream Stream_call icc_call)','icc_dict calls','icc_doc calls','forallb (stream_ok Stream_call_ok icc_ok) calls','Forall (stream_allowed Stream_call_allowed icc_allowed) calls','good_icc')
        else:
            k=kind(W); assert (k=='stream')==stream,(n,W,k)
            f='dict' if k=='stream' else 'obj'
            r=(k,f'{W}_calls',f'{W}_{f} calls',f'{W}_reads calls',f'{W}_ok calls','True' if k=='obj' else f'{W}_allowed calls',f'good_{W}')
        if n not in('icc_profile',) : assert ('self.stream(' in body)==(r[0]=='stream')
        rows.append((n,cite)+r); i=j
    i+=1
rows.append(('stream','src/chunk.rs:247-249','stream','Stream_calls','Stream_dict calls','Stream_reads calls','Stream_ok calls','Stream_allowed calls','good_Stream'))
MOD='ModelTwFiles ModelTwGraphics ModelTwAnnot ModelTwForms ModelTwAttr ModelTwXObj ModelTwFonts ModelTwDoc'
SPC=MOD.replace('Model','Spec')
IMP=f'''From Coq Require Import ZArith List Bool.
From Verif Require ModelContent ModelCmap.
From Verif Require Import Bytes ModelFloat ModelBuf ModelObject ModelChunk ModelColor ModelSmall ModelPdf ModelTw ModelEnums ModelRoles ModelTwArgs
  {MOD} ModelFontDesc'''
SIMP=f'''
  SpecLex SpecObj SpecText SpecMeans SpecRenum SpecChunk SpecFile SpecPdf SpecTyped SpecColor SpecSmall SpecTw SpecEnums SpecRoles SpecTwArgs
  {SPC} SpecFontDesc'''
TAIL='''.
Import ListNotations.
Local Open Scope Z_scope.

'''
def data(k): return 'data' if k=='stream' else ''
m='(** Model of the typed constructors of [Chunk] (src/chunk.rs:253-493) and of programs that use them.\n    Generated by gen/gen_doc.py from the source text. *)\n\n'+IMP+' SpecChunk'+TAIL
m+='''(** src/color.rs:184-231 [IccProfile], which dereferences to a stream. *)
Definition icc_dict (calls : list (or_stream Stream_call icc_call)) : option (list (bytes * obj)) :=
  stream_writer Stream_entries [] (fun c => option_map (fun e => [e]) (icc_entry c)) calls.

(** A call of a typed constructor with the calls on the writer that it returns. *)
Inductive chunk_call :=
'''+''.join(f'| Ck_{n} ({"data : bytes) (" if k=="stream" else ""}calls : {t})\n' for n,c,k,t,*_ in rows).rstrip()+'''.

(** What is then written under the id; [None] is a panic. *)
Definition chunk_call_body (c : chunk_call) : option body :=
  match c with
'''
for n,c,k,t,o,r,ok,al,g in rows:
    e={'obj':f'Some (BObj ({o}))','opt':f'option_map BObj ({o})','stream':f'option_map (fun es => BStream es data) ({o})'}[k]
    m+=f'  | Ck_{n} {data(k)+" " if k=="stream" else ""}calls => {e}   (* {c} *)\n'
m+='''  end.

(** A call on a [Pdf]: a typed constructor, the catalog or the document information with their typed methods
    (src/lib.rs:293-306), or anything else. *)
Inductive doc_op :=
| DocTyped (id : Z) (c : chunk_call)
| DocCatalog (id : Z) (calls : Catalog_calls)
| DocInfo (id : Z) (calls : DocumentInfo_calls)
| DocOther (op : pdf_op).
Definition doc_op_plain (op : doc_op) : option pdf_op :=
  match op with
  | DocTyped id c =>
      option_map (fun b => match b with BObj o => PdfObject id o | BStream es data => PdfStream id es data end) (chunk_call_body c)
  | DocCatalog id calls => option_map (PdfCatalog id) (writer_list_opt [] Catalog_entries calls)
  | DocInfo id calls => Some (PdfInfo id (writer_list [] DocumentInfo_entries calls))
  | DocOther op => Some op
  end.
(** A panicking call ends the program. *)
Definition doc_run (ops : list doc_op) (p : pdf) : option pdf :=
  match all_some doc_op_plain ops with Some l => pdf_run l p | None => None end.
'''
open(T+'ModelDoc.v','w').write(m)
s='(** Specification of documents built with the typed constructors.  Generated by gen/gen_doc.py. *)\n\n'+IMP+' ModelDoc'+SIMP+TAIL
s+='''(** The entries of an ICC profile stream. *)
Definition icc_call_doc (c : icc_call) : list entry_spec :=
  match c with
  | IccN n => [(lit "N", is_int n)]
  | IccAlternate c => [(lit "Alternate", cs_reads c)]
  | IccAlternateName n => [(lit "Alternate", is_name n)]
  | IccRange l => [(lit "Range", is_reals l)]
  | IccMetadata r => [(lit "Metadata", is_ref r)]
  end.
Definition icc_doc (calls : list (or_stream Stream_call icc_call)) : list entry_spec := flat_map (stream_doc Stream_doc icc_call_doc) calls.

(** The indirect object is an object, not a stream, with a value satisfying [P]. *)
Definition is_object (id : Z) (P : val -> Prop) (i : indirect) : Prop := exists v, i = IObj id 0 v /\\ P v.
(** It is a stream with this data whose dictionary has the length, then the entries [xs]. *)
Definition is_stream (id : Z) (xs : list entry_spec) (data : bytes) (i : indirect) : Prop :=
  exists vs, i = IStream id 0 ((lit "Length", VInt (blen data)) :: vs) data /\\ is_dict xs (VDict vs).

(** What a reader should find under the id. *)
Definition chunk_call_reads (id : Z) (c : chunk_call) : indirect -> Prop :=
  match c with
'''
for n,c,k,t,o,r,ok,al,g in rows:
    s+=f'  | Ck_{n} {"data " if k=="stream" else ""}calls => '+(f'is_stream id ({r}) data' if k=='stream' else f'is_object id ({r})')+'\n'
s+='''  end.
(** The arguments are within the ranges of the writers' theorems. *)
Definition chunk_call_ok (c : chunk_call) : bool :=
  match c with
'''
for n,c,k,t,o,r,ok,al,g in rows: s+=f'  | Ck_{n} {"_ " if k=="stream" else ""}calls => {ok}\n'
s+='''  end.
(** The calls that do not panic (color spaces: C40; ICC profiles: C40, C44). *)
Definition chunk_call_allowed (c : chunk_call) : Prop :=
  match c with
'''
for n,c,k,t,o,r,ok,al,g in rows: s+=f'  | Ck_{n} {"_ " if k=="stream" else ""}{"_" if al=="True" else "calls"} => {al}\n'
s+='''  end.

Definition doc_op_ok (op : doc_op) : Prop :=
  match op with
  | DocTyped id c => id_ok id = true /\\ chunk_call_ok c = true
  | DocCatalog id calls => id_ok id = true /\\ Catalog_ok calls = true
  | DocInfo id calls => id_ok id = true /\\ DocumentInfo_ok calls = true
  | DocOther op => op_typed op
  end.
(** The ids under which something is written. *)
Definition doc_op_ids (op : doc_op) : list Z :=
  match op with
  | DocTyped id _ | DocCatalog id _ | DocInfo id _ => [id]
  | DocOther op => map fst (op_items op)
  end.
Definition doc_ids (ops : list doc_op) : list Z := flat_map doc_op_ids ops.
Definition doc_op_reads (op : doc_op) (resolved : Z -> option indirect) : Prop :=
  match op with
  | DocTyped id c => exists i, resolved id = Some i /\\ chunk_call_reads id c i
  | DocCatalog id calls => exists i, resolved id = Some i /\\ is_object id (Catalog_reads calls) i
  | DocInfo id calls => exists i, resolved id = Some i /\\ is_object id (DocumentInfo_reads calls) i
  | DocOther op => forall it, In it (op_items op) -> body_readable (snd it) = true ->
      exists i, resolved (fst it) = Some i /\\ item_means it i
  end.
(** The last catalog. *)
Definition doc_catalog (ops : list doc_op) : option Z :=
  fold_left (fun a op => match op with DocCatalog id _ | DocOther (PdfCatalog id _) => Some id | _ => a end) ops None.
'''
open(T+'SpecDoc.v','w').write(s)
p='(** Proofs about documents built with the typed constructors.  Generated by gen/gen_doc.py. *)\n\n'+IMP+' ModelDoc'+SIMP+' SpecDoc\n  ProofTyped ProofColor ProofTw ProofEnums ProofTwArgs '+MOD.replace('Model','Proof')+' ProofFontDesc PropTree'+TAIL
p+='''Definition good_body (b : body) (R : Z -> indirect -> Prop) : Prop :=
  body_typed b = true /\\ body_readable b = true /\\ forall id i, item_means (id, b) i -> R id i.

Lemma ok_typed : forall o, obj_ok o = true -> obj_typed o = true.
Proof.
  fix IH 1. intros [p|l|l]; cbn [obj_ok obj_typed].
  - destruct p; cbn [prim_ok prim_typed]; unfold real_ok; intro H; repeat (apply andb_true_iff in H as [H ?]);
      repeat match goal with K : _ && _ = true |- _ => apply andb_true_iff in K as [? K] end;
      try assumption; try reflexivity; repeat (apply andb_true_iff; split); assumption.
  - induction l as [|o l IHl]; cbn [forallb]; [reflexivity|]. intro H. apply andb_true_iff in H as [H1 H2].
    rewrite (IH o H1), (IHl H2). reflexivity.
  - induction l as [|[k o] l IHl]; cbn [forallb snd]; [reflexivity|]. intro H. apply andb_true_iff in H as [H1 H2].
    rewrite (IH o H1), (IHl H2). reflexivity.
Qed.
Lemma good_body_obj o P : good o P -> good_body (BObj o) (fun id => is_object id P).
Proof.
  intros [F M]. unfold fine in F. apply andb_true_iff in F as [F1 F2]. split; [apply ok_typed; exact F1|].
  split; [cbn [body_readable]; rewrite F1, (C11_nonempty_names_suffice _ F2); reflexivity|].
  intros id i H. inversion H; subst. eexists. split; [reflexivity|]. apply M. assumption.
Qed.
Lemma good_body_stream es xs data : good_entries es xs -> good_body (BStream es data) (fun id => is_stream id xs data).
Proof.
  intro G. destruct (good_dict _ _ G) as [F M]. unfold fine in F. apply andb_true_iff in F as [F1 F2].
  split; [exact (ok_typed _ F1)|]. split.
  { cbn [body_readable]. unfold entries_readable. rewrite F1, (C11_nonempty_names_suffice _ F2). reflexivity. }
  intros id i H. inversion H; subst. eexists. split; [reflexivity|]. apply M. assumption.
Qed.

Lemma icc_call_good c es : icc_ok c = true -> option_map (fun e => [e]) (icc_entry c) = Some es -> good_entries es (icc_call_doc c).
Proof.
  intros K E. destruct c as [n|c|n|l|r]; cbn [icc_entry icc_ok icc_call_doc] in *.
  - destruct ((n =? 1) || (n =? 3) || (n =? 4)); [|discriminate]. apply some_inj in E. subst es.
    apply good_cons; [reflexivity|apply good_int; exact K|constructor].
  - destruct (cs_obj c) as [o|] eqn:X; [|discriminate]. apply some_inj in E. subst es.
    apply good_cons; [reflexivity|eapply good_cs; eassumption|constructor].
  - apply some_inj in E. subst es. apply good_cons; [reflexivity|apply good_name; exact K|constructor].
  - apply some_inj in E. subst es. apply good_cons; [reflexivity|apply good_reals; exact K|constructor].
  - apply some_inj in E. subst es. apply good_cons; [reflexivity|apply good_ref; exact K|constructor].
Qed.
Lemma good_icc calls es : forallb (stream_ok Stream_call_ok icc_ok) calls = true -> icc_dict calls = Some es -> good_entries es (icc_doc calls).
Proof.
  intros K E. change (icc_doc calls) with ([] ++ icc_doc calls). unfold icc_dict in E. unfold icc_doc.
  eapply good_stream; [constructor|exact Stream_good|exact icc_call_good|exact K|exact E].
Qed.

Lemma chunk_call_good c b : chunk_call_ok c = true -> chunk_call_body c = Some b -> good_body b (fun id => chunk_call_reads id c).
Proof.
  intros K E. destruct c; cbn [chunk_call_ok chunk_call_body chunk_call_reads] in *.
'''
for n,c,k,t,o,r,ok,al,g in rows:
    if k=='obj': p+=f'  - apply some_inj in E. subst b. apply good_body_obj. apply ({g}). exact K.\n'
    elif k=='opt': p+=f'  - destruct ({o}) as [o|] eqn:X; [|discriminate]. apply some_inj in E. subst b. apply good_body_obj. eapply {g}; eassumption.\n'
    else: p+=f'  - destruct ({o}) as [es|] eqn:X; [|discriminate]. apply some_inj in E. subst b. apply good_body_stream. eapply {g}; eassumption.\n'
p+='''Qed.

Lemma icc_dict_none calls : icc_dict calls <> None <-> Forall (stream_allowed Stream_call_allowed icc_allowed) calls.
Proof. apply stream_none; [exact Stream_none|]. intro c. rewrite omap_none. apply icc_none. Qed.

Lemma chunk_call_none c : chunk_call_body c <> None <-> chunk_call_allowed c.
Proof.
  destruct c; cbn [chunk_call_body chunk_call_allowed];
    try (split; [intros _; exact I|intros _; discriminate]); rewrite omap_none; try reflexivity.
'''
def none(n,k,t,al):
    W=t.replace('_calls','')
    return 'Stream_dict_none' if n=='stream' else f'{W}_dict_none' if k=='stream' else f'{W}_obj_none'
for n,c,k,t,o,r,ok,al,g in rows:
    if n=='color_space': p+='  - apply cs_none.\n'
    elif n=='icc_profile': p+='  - apply icc_dict_none.\n'
    elif al not in('True',): p+=f'  - apply {none(n,k,t,al)}.\n'
p+='Qed.\n'
open(T+'ProofDoc.v','w').write(p)
print(len(rows))
