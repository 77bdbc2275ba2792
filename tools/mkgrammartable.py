#!/usr/bin/env python3
"""theories/GrammarTable.v: the rule table of /repo/pkg/core/parser/parser.go, translated literally, and compared with Grammar.rules."""
import re
s=open('/repo/pkg/core/parser/parser.go',encoding='utf8').read()
i=s.index('var g = &grammar{'); j=s.index('\nfunc ',i); s=s[i+len('var g = '):j].replace('interface{}','any')
TOK=re.compile(r"\s+|(?P<str>\"(?:\\.|[^\"\\])*\")|(?P<chr>'(?:\\.|[^'\\])')|(?P<num>\d+)|(?P<id>\(\*parser\)\.\w+|[A-Za-z_][A-Za-z_0-9.]*)|(?P<p>[\[\]{}(),:&*])")
t=[];k=0
while k<len(s):
    m=TOK.match(s,k); assert m,s[k:k+40]; k=m.end()
    if m.lastgroup: t.append((m.lastgroup,m.group(m.lastgroup)))
n=0
def pk(): return t[n][1]
def nx():
    global n; n+=1; return t[n-1]
def items(close):
    o=[];kw={}
    while pk()!=close:
        v=val()
        if pk()==':': nx(); kw[v]=val()
        else: o.append(v)
        if pk()==',': nx()
    nx(); return o,kw
def val():
    k,x=nx()
    if k in('str','chr'): return ('s',eval(x)) if k=='str' else ('ch',eval(x))
    if k=='num': return int(x)
    if x in '&*': return val()
    if x=='[':
        while pk()!='{': nx()
        nx(); return ('list',items('}')[0])
    if x=='{': return ('obj','',items('}'))
    if k=='id':
        if pk()=='{': nx(); return ('obj',x,items('}'))
        if pk()=='(': nx(); return ('call',x,items(')')[0])
        return x
    raise SystemExit(x)
g=val()
rules=g[2][1]['rules'][1]
def S(x): return '"'+x.replace('"','""')+'"'
def zs(l): return '['+'; '.join(str(ord(c)) for c in l)+']'
def E(o):
    _,ty,(pos,kw)=o
    if ty=='actionExpr': return f"TAction {S(kw['run'].split('.')[1])} ({E(kw['expr'])})"
    if ty=='labeledExpr': return f"TLabel {S(kw['label'][1])} ({E(kw['expr'])})"
    if ty=='choiceExpr': return 'TChoice ['+'; '.join(map(E,kw['alternatives'][1]))+']'
    if ty=='seqExpr': return 'TSeq ['+'; '.join(map(E,kw['exprs'][1]))+']'
    if ty=='litMatcher': return f"TLit {zs(kw['val'][1])} {kw['ignoreCase']}"
    if ty=='charClassMatcher':
        r=[c[1] for c in kw['ranges'][1]] if 'ranges' in kw else []
        c=[c[1] for c in kw['chars'][1]] if 'chars' in kw else []
        cl=[c[2][0][1] for c in kw['classes'][1]] if 'classes' in kw else []
        assert cl in ([],['Z']) and not set(kw)-{'pos','val','chars','ranges','classes','ignoreCase','inverted'}
        rs='['+'; '.join(f'({ord(r[q])}, {ord(r[q+1])})' for q in range(0,len(r),2))+']'
        return f"TClass {S(kw['val'][1])} (CharClass {zs(c)} {rs} {'true' if cl else 'false'} {kw['ignoreCase']} {kw['inverted']})"
    if ty=='anyMatcher': return 'TAny'
    if ty=='ruleRefExpr': return f"TRef {S(kw['name'][1])}"
    if ty=='zeroOrMoreExpr': return f"TStar ({E(kw['expr'])})"
    if ty=='oneOrMoreExpr': return f"TPlus ({E(kw['expr'])})"
    if ty=='zeroOrOneExpr': return f"TOpt ({E(kw['expr'])})"
    if ty=='notExpr': return f"TNot ({E(kw['expr'])})"
    if ty=='stateCodeExpr': return f"TState {S(kw['run'].split('.')[1])}"
    raise SystemExit(ty)
o=['''(** The rule table of the generated parser, pkg/core/parser/parser.go:82-1842, translated literally by tools/mkgrammartable.py,
    and the check that the rules of the model (Grammar.v, written after parser.pigeon) have exactly its shape: the same rules in
    the same order under the same names, the same expressions with the same literals, classes and labels, an action or a state
    change at the same places.  (The code of the actions is compared by reading: Grammar.v cites the lines.) *)
From Verif Require Import PegText.
Open Scope string_scope.
Open Scope Z_scope.

Inductive tshape :=
| TAction (run : string) (e : tshape)
| TLabel (l : string) (e : tshape)
| TChoice (alts : list tshape)
| TSeq (es : list tshape)
| TLit (lit : list Z) (ignore_case : bool)
| TClass (text : string) (c : charclass)
| TAny
| TRef (name : string)
| TStar (e : tshape)
| TPlus (e : tshape)
| TOpt (e : tshape)
| TNot (e : tshape)
| TState (run : string).

(** The shape of an expression of the model; no rule has more than one action or state change, which pigeon numbers 1 *)
Fixpoint shape_of (rule_text : string) (e : expr rule) : tshape :=
  match e with
  | EAction _ e => TAction ("callon" ++ rule_text ++ "1") (shape_of rule_text e)
  | ELabel l e => TLabel l (shape_of rule_text e)
  | EChoice alts => TChoice (map (shape_of rule_text) alts)
  | ESeq es => TSeq (map (shape_of rule_text) es)
  | ELit l i => TLit l i
  | EClass c => TClass (class_text c) c
  | EAny => TAny
  | ERef r => TRef (rule_name r)
  | EStar e => TStar (shape_of rule_text e)
  | EPlus e => TPlus (shape_of rule_text e)
  | EOpt e => TOpt (shape_of rule_text e)
  | ENot e => TNot (shape_of rule_text e)
  | EState _ => TState ("callon" ++ rule_text ++ "1")
  end.

(** parser.go:82-1842 *)
Definition table : list (string * tshape) := [''']
o.append(';\n'.join(f"  ({S(r[2][1]['name'][1])},\n   {E(r[2][1]['expr'])})" for r in rules))
o.append('''].

(** All rules, in the order of their declaration *)
Definition all_rules : list rule :=
  [Command; CommandWithExpression; Choice; ChoiceItems; ChoiceItem; ChoiceItemChars; Calc; DRollExprCommand; DRollCompCommand; BRollList;
   BRollComp; RRollList; RRollComp; URollComp; URollExpr; URollList; IntExpr; IntExprAdditive; IntExprMultitive; IntExprPrimary;
   ParenthesizedIntExpr; IntExprUnaryPlus; IntExprUnaryMinus; DRollComp; DRollExpr; DRollExprAdditive; DRollExprMultitive; DRollExprPrimary;
   ParenthesizedDRollExpr; DRollExprUnaryPlus; DRollExprUnaryMinus; IntRandExpr; IntRandExprAdditive; IntRandExprMultitive;
   IntRandExprPrimary; ParenthesizedIntRandExpr; IntRandExprUnaryPlus; IntRandExprUnaryMinus; DRoll; BRoll; RRoll; URoll; RollOperand;
   RandomNumber; RandomNumberOperand; ResetRandCount; IncRandCount; Integer; CompareOp; EOT].
Lemma all_rules_complete : forall r : rule, In r all_rules.
Proof. destruct r; cbn; tauto. Qed.

(** The rules of the model are those of the table. *)
Theorem grammar_is_the_table : map (fun r => (rule_name r, shape_of (rule_name r) (rules r))) all_rules = table.
Proof. reflexivity. Qed.
''')
open('/verif/rocq/theories/GrammarTable.v','w').write('\n'.join(o))
print(len(rules),'rules')
