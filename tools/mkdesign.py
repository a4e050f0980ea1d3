#!/usr/bin/env python3
"""writes DESIGN.md from the theories, the properties, the statuses and findings.md"""
import re,os,json,collections
os.chdir(os.path.dirname(os.path.dirname(os.path.abspath(__file__))))
T='rocq/theories/'
areas=collections.OrderedDict(); where={}; count=collections.Counter(); closed=0
for l in open('rocq/_CoqProject'):
    l=l.strip()
    if not l.endswith('.v'): continue
    b=os.path.basename(l)[:-2]
    m=re.match(r'(.*?)(Model|Spec|Proof|Props|Table)\w*$',b)
    a=m.group(1) if m else b
    areas.setdefault(a,[]).append(b)
    t=open(T+b+'.v').read()
    for c in re.findall(r'^\s*Theorem (C\d\d\d?)_\w+',t,re.M):
        where.setdefault(c,a); count[c]+=1
tech={
'PBuffer':'the buffer simulates a byte FIFO (refinement), for every history of operations',
'Element3':'round-trip laws by induction on lists of fields; the wire format as a separate relation',
'Iter':'induction on the list an iterator has left','TypeIO':'round trips and strictness; fuelled loops with proofs of termination',
'Numeric':'value semantics of digits in base 10000, scaled integers','Datetime':'arithmetic of days and microseconds',
'Neg':'invariant over all scripts of the server','Inst':'state machine; invariants, simulation by a protocol automaton, batching lemma',
'Str':'a separate SQL lexer as the specification','Bytea':'induction on byte strings','Version':'induction on the text',
'PgPass':'induction on the text; first match','RI':'round trips by induction','IRI':'round trip and noninterference','Conf':'invariants over the lines of a file',
'Array':'induction on the dimensions','Row':'rows as tuple and key map','Exc':'the generated class table, and a search specified separately',
'Param':'merge of sources, per key','Alock':'invariant between the object and the lock counters of the server','Dbapi':'delivered ++ buffered ++ remaining is constant',
'Percent':'induction on the parts of a statement','Conn':'invariants over histories with an arbitrary socket','Ssl':'trace specification, all behaviours of the outside',
'Fetch':'the rows given are those of the server, every run','Copy':'invariance under cutting; invariant of the manager','Notify':'invariant over schedules and clocks',
'Xact':'induction on programs against a model of the server','Sett':'simulation of the settings of a session','Curs':'simulation of a scrollable cursor',
'Lib':'a grammar of documents as the specification','Tres':'all catalogs, induction on the types','Life':'invariant over all histories of names and closings',
'Mesg':'case analysis over all fields, invariants over histories','Mark':'induction on the text; an SQL reader as specification','Load':'outcome relation over all sources and replies',
'Lcopy':'outcome relation over all sources and replies','First':'outcome relation over all replies','Pgc':'a grammar of the output of pg_config','Tmp':'histories of nested contexts',
'Cls':'invariant over all histories','Clu':'an arbitrary environment as functions of the history of events; exact relational view of each call',
'Cryp':'symbolic words: both the code and FIPS 46-3 are computed on linear forms; S-box tables compared entry by entry','Ctor':'all parameter dictionaries; the server reading the packet as specification',
'Proc':'all functions of the catalog; the SQL text as specification','Flt':'IEEE 754 encodings defined by their value; rounding by distance','Geo':'order of the values of floats','Fdt':'error analysis of the IEEE operations in units of 2^-1074','Xml':'induction over the items with the UTF-8 codec defined and proved against the table of the standard; library and session codec arbitrary','Cons':'environment as functions of the event history; relations for what the words and files of a command do; invariant for temporary files','Bit':'bytes of eight bits by reflection on all eight-bit texts, induction over the rest','Desc':'induction over histories, newest operation first','Opt':'a relation of the ways to write each option; the parser is proved to accept exactly the lines of that relation and to mean what they say','Pyx':'the code that runs is an arbitrary function on the state of the interpreter','Sock':'all environments: every call of the socket module may fail in any way','Do':'lexing of the message the server receives, determinism of the reading','Cfile':'the file as a value, every step may be the last; frame conditions on the other lines','Elem':'visited objects as measure of termination; the text as an inductive layout of lines','Nt':'induction over the names with the set of those seen; invariant of the type cache over all histories','Stmt':'every conversion an arbitrary partial function; first failing position as specification','Stmt':'every conversion an arbitrary partial function; first failing position as specification',
}
tech.update(json.load(open('tools/tech.json')) if os.path.exists('tools/tech.json') else {})
props=[json.loads(l) for l in open('properties.jsonl')]
status=json.load(open('tools/status.json'))
out=[]
w=out.append
w('''# Formal model of python-postgres/fe in Rocq (Coq 8.16.1)

(Generated by tools/mkdesign.py.)

## Layout

* `rocq/theories/<Area>Model.v`: the model, function by function; each definition cites the file and the lines of /repo.
* `rocq/theories/<Area>Spec.v`: small specifications, independent of the model, that the statements use.
* `rocq/theories/<Area>Proof*.v`: lemmas. `rocq/theories/<Area>Props*.v`: the theorems `Cnn_*`, `Print Assumptions` for each, and the
  `Example`s showing that concrete cases meet the hypotheses.
* `Base`, `PyStr`, `PyInt`, `PyList`, `PyDict`, `RegexModel`: the Python built-ins used.
* `properties.jsonl` (from `tools/mkprops.py`, `tools/moreprops.py`), `MANIFEST.json` (from `tools/mkmanifest.py`, `tools/status.json`).
* `seeded/LOG.jsonl`: wrong programs tried against the theorems (by `tools/mutate.py`, in scratch copies).

## Conventions

* Bytes are `Z` in 0..255; text is a list of code points (`Z`); Python `int` is `Z`; a Python float is a binary64 `spec_float`.
* A call that may raise gives `res A := Ok a | Err e` (or an outcome type of its area); generators are lists or step functions; mutation
  is a new state; loops are structural or carry fuel with a result `OutOfFuel` that the theorems exclude, with a theorem that enough fuel exists.
* Everything outside the process (sockets, server, files, clock, processes, Unicode tables, codecs) is an arbitrary function or an
  arbitrary script of replies, quantified over in the theorems.
* The pure-Python path is modelled: the C extension `port.optimized` is optional and every use has an `ImportError` fallback.
* Where the code breaks a property the full statement is refuted by a theorem `..._refuted` with a concrete witness, the property is
  marked partial, and what does hold is proved beside it. So "partial" nearly always means: the rest is false of this code.

## Trusted base

* The kernel of Coq 8.16.1. No axioms are added, no kernel check is switched off; no functors, module types or plugins.
* `Print Assumptions` says "Closed under the global context" for every theorem of the manifest (`ASSUMPTIONS.md` lists each of them): not
  even axioms of the standard library are used.
* That the model reads /repo correctly (nothing is executed; each definition cites the lines it models).
* The Python behaviour described in `Base`, `PyStr`, `PyInt`, `PyList`, `PyDict`, `RegexModel`, `LibModel` and the heads of the model files (struct, BytesIO, str
  methods, slices, dictionaries in insertion order, regular expressions, generators, with blocks, exceptions).
* Where a property speaks of the server (transactions, settings, cursors, advisory locks, COPY, notifications), the model of the server in
  that area, after the PostgreSQL documentation.

## Properties

| id | title | area | how it is proved | theorems | status |
|----|-------|------|------------------|----------|--------|''')
for p in props:
    c=p['id']; a=where.get(c,'')
    st,note=status.get(c,('',''))
    w('| %s | %s | %s | %s | %d | %s: %s |'%(c,p['title'].replace('|','/'),a,tech.get(a,''),count[c],st,note.replace('|','/')))
w('''
## What is modelled

The head of each model file, which says what it covers and what it leaves out:
''')
for a,fs in areas.items():
    for b in fs:
        if not re.search(r'Model\d*$|^Py|^Base$|Table',b) : continue
        t=open(T+b+'.v').read().lstrip()
        if not t.startswith('(**'): continue
        h=re.sub(r'\s+',' ',t[3:t.index('*)')].strip())
        w('* '+h)
w('''
## What is not modelled

* `port/` (the C extension and signal1_msw), `release/`, `documentation/`, `test/`, `bin/`, `python/command.py` (the interactive console), `python/msw.py`, `python/decorlib.py`, `python/doc.py`.
* `types/io/stdlib_xml_etree.py` (a wrapper around xml.etree), path and polygon (no type I/O registered), `types/io/pg_system.py`.
* `api.py`: abstract classes and documentation; `exceptions.py`: only the class table and the lookup.
* `repr` and `_e_metas` descriptions except the LINE mark (C60) and the text of exceptions (C62); warnings.
* Threads: every call is atomic with respect to other threads. Interrupts (KeyboardInterrupt) are modelled where the property speaks of them
  (C37, C39, C41, C48, C67, C68), at the calls to the outside.
* Memory limits, recursion limits, and the timing of the garbage collector (C57 lets collection happen at any moment).

## Findings
''')
w(open('tools/findings.md').read())
open('DESIGN.md','w').write('\n'.join(out))
