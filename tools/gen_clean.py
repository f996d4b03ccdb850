#!/usr/bin/env python3
"""Generates theories/CleanRec.v from the records of State.v: what it means that a record contains no
CR and no LF, and that the accessors and setters respect this."""
import re
src = open('../rocq/theories/State.v').read()
src += open('../rocq/theories/Lists.v').read()
src += open('../rocq/theories/ParseReq.v').read()
skip = {'co_rbuf', 'cf_keyfile', 's_out', 's_odd'}
plain = ('Z', 'nat', 'N', 'bool', 'handle', 'chandle', 'connid', 'ctype', 'option connid', 'option handle', 'list handle', 'list oddity')
def rec(name):
    m = re.search(r'Record %s\s*:=\s*\w+\s*\{(.*?)\}\.' % name, src, re.S)
    body = re.sub(r'\(\*.*?\*\)', '', m.group(1), flags=re.S)
    return [tuple(x.strip() for x in f.split(':', 1)) for f in body.split(';') if f.strip()]
out = ['''(** Generated by tools/gen_clean.py.  "Clean" records: no string in them contains CR or LF.  The
    read buffer of a connection (raw input) and the lines of key files are exempt. *)
From Coq Require Import List Ascii String ZArith NArith Bool.
From Verif Require Import Bytes Match Lists Hash ParseReq State Messages Monad Clean0.
Import ListNotations.
''']
for name in ['lelem', 'request', 'client', 'channel', 'member', 'conn', 'cserver', 'whowas', 'coper', 'cchan', 'conf', 'state']:
    fs = rec(name)
    cl = [(f, t) for f, t in fs if f not in skip and t not in plain]
    v = 'r'
    out.append('Record clean_%s (%s : %s) : Prop := mk_clean_%s {' % (name, v, name, name))
    fields = ['  k_%s : clv (%s %s)' % (f, f, v) for f, t in cl]
    if name == 'state':
        fields.append('  k_s_out : Forall (fun p => legal_line (snd p)) (s_out r)')
    out.append(';\n'.join(fields) + ' }.')
    out.append('#[export] Instance Cl_%s : Cl %s := clean_%s.' % (name, name, name))
    if name == 'lelem':
        out.append('#[export] Instance Cl_mlist : Cl mlist := @Cl_list lelem Cl_lelem.')
    for f, t in cl:
        out.append('Lemma clv_%s : forall r : %s, clv r -> clv (%s r). Proof. intros r H. apply H. Qed.' % (f, name, f))
        out.append('#[export] Hint Resolve clv_%s : clv.' % f)
    con = re.search(r'Record %s\s*:=\s*(\w+)' % name, src).group(1)
    if name != 'state':
        bs = ' '.join('(x%d : %s)' % (i, t) for i, (f, t) in enumerate(fs))
        ps = ' -> '.join(['clv x%d' % i for i, (f, t) in enumerate(fs) if (f, t) in cl] + ['clv (%s %s)' % (con, ' '.join('x%d' % i for i in range(len(fs))))])
        out.append('Lemma clv_%s : forall %s, %s. Proof. intros; constructor; assumption. Qed.' % (con, bs, ps))
        out.append('#[export] Hint Resolve clv_%s : clv.' % con)
    hasset = ('Definition set_%s ' % fs[0][0]) in src
    if hasset:
        for f, t in fs:
            if ('Definition set_%s ' % f) not in src: continue
            clean = any(f == g for g, _ in cl)
            extra = ''
            if f == 's_out':
                extra = 'Forall (fun p => legal_line (snd p)) v -> '
            out.append('Lemma clv_set_%s : forall (v : %s) (r : %s), %s%sclv r -> clv (set_%s v r). Proof. intros v r; intros; match goal with H : clv r |- _ => destruct H end; constructor; simpl; auto. Qed.'
                       % (f, t, name, 'clv v -> ' if clean else '', extra, f))
            out.append('#[export] Hint Resolve clv_set_%s : clv.' % f)
open('../rocq/theories/CleanRec.v', 'w').write('\n'.join(out) + '\n')
