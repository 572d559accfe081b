#!/usr/bin/env python3
"""Translate Go source into terms of GoLang.v.

Usage: go_source.py [REPO] > rocq/theories/Source.v
       go_source.py --messages [REPO] > rocq/theories/SourceMessages.v
       go_source.py --ring [REPO] > rocq/theories/SourceRing.v
       go_source.py --conn [REPO] > rocq/theories/SourceConn.v
       go_source.py --client [REPO] > rocq/theories/SourceClient.v
       go_source.py --records [REPO] > rocq/theories/SourceRecords.v

A parser for the part of Go that the files below are written in.  It knows Go's grammar
and which identifiers are packages, types, functions and constants, and nothing else: no
types are inferred and nothing is simplified.  Every function, structure, constant and
variable of the files is translated (declared interface, function and map types are not);
anything the parser does not know is an error."""
import re, sys
mode = ([a for a in sys.argv[1:] if a.startswith("--")] or ["--codec"])[0][2:]
args = [a for a in sys.argv[1:] if not a.startswith("--")]
repo = args[0] if args else "/repo"
FILES, TITLE, NAME = {
    "codec": (["message/decoder.go", "message/encoder.go", "message/sizeof/sizeof.go"], "message/decoder.go, message/encoder.go and message/sizeof/sizeof.go", "source"),
    "messages": (["message/messages.gen.go"], "message/messages.gen.go", "messages"),
    "ring": (["ring/buffer.go"], "ring/buffer.go", "ring_source"),
    "conn": (["gen.conn.go"], "gen.conn.go", "conn_source"),
    "client": (["message/keys.go", "gen.option.go", "gen.broker.go", "client.go"], "message/keys.go, gen.option.go, gen.broker.go and client.go", "client_source"),
    "records": (["gen.record_batch.go"], "gen.record_batch.go", "records_source")}[mode]
# functions of the package in other files
ELSEWHERE = {"conn": ["kafka.buildConfig"], "client": ["kafka.Connect"]}.get(mode, [])
TOKEN = re.compile(r"""[ \t\r]+ | //[^\n]* | (?P<nl>\n) | (?P<str>"(?:[^"\\]|\\.)*") | (?P<num>0x[0-9a-fA-F]+|[0-9]+(?:e[0-9]+)?)
  | (?P<id>[A-Za-z_]\w*) | (?P<op>\+\+|--|:=|\+=|-=|\*=|==|!=|<=|>=|&&|\|\||<-|\.\.\.|[-+*/%&|^<>=!()\[\]{},;.:])""", re.X)
INTS = {"int8": "I8", "int16": "I16", "int32": "I32", "int64": "I64", "int": "INT", "uint8": "U8", "uint16": "U16", "uint32": "U32", "uint64": "U64", "byte": "U8", "rune": "I32"}
BINARY = [["||"], ["&&"], ["==", "!=", "<", "<=", ">", ">="], ["+", "-"], ["*"]]
OPS = {"+": "Add", "-": "Sub", "*": "Mul", "==": "Eq", "!=": "Ne", "<": "Lt", "<=": "Le", ">": "Gt", ">=": "Ge", "&&": "And", "||": "Or"}
KEYWORDS = {"break", "case", "chan", "const", "continue", "default", "defer", "else", "fallthrough", "for", "func", "go", "goto", "if", "import", "interface", "map", "package", "range", "return", "select", "struct", "switch", "type", "var"}

def tokens(src):
    """Go's tokens with their lines, semicolons put in as the language says."""
    out, pos, line = [], 0, 1
    def end():
        if out and (out[-1][0] in ("str", "num") or out[-1][0] == "id" and out[-1][1] not in KEYWORDS - {"break", "continue", "fallthrough", "return"} or out[-1][1] in ("++", "--", ")", "]", "}")):
            out.append(("op", ";", line))
    while pos < len(src):
        m = TOKEN.match(src, pos)
        assert m, src[pos:pos + 40]
        pos = m.end()
        if m.lastgroup == "nl": end(); line += 1
        elif m.lastgroup: out.append((m.lastgroup, m.group(), line))
    end()
    return out

def quote(s): return '"%s"' % s
def coq_list(xs): return "[" + "; ".join(xs) + "]"
def option(x): return "None" if x is None else "(Some %s)" % x
def text(lit): return coq_list(str(b) for b in lit.encode())

class Parser:
    def __init__(self, path, decls):
        self.toks, self.i, self.path = tokens(open(repo + "/" + path).read()), 0, path
        self.imports, self.decls, self.header = {}, decls, False
    # --- tokens
    def peek(self, k=0): return self.toks[self.i + k][1] if self.i + k < len(self.toks) else None
    def kind(self): return self.toks[self.i][0]
    def line(self): return self.toks[self.i][2]
    def next(self): self.i += 1; return self.toks[self.i - 1][1]
    def eat(self, t): assert self.peek() == t, (self.path, self.line(), t, self.peek()); self.i += 1
    def opt(self, t):
        if self.peek() == t: self.i += 1; return True
        return False
    def ident(self):
        assert self.kind() == "id" and self.peek() not in KEYWORDS, (self.path, self.line(), self.peek()); return self.next()
    # --- types
    def type(self):
        if self.opt("*"): return "GPtr %s" % self.type_()
        if self.opt("["):
            if self.opt("]"): return "GSlice %s" % self.type_()
            n = self.next(); self.eat("]"); return "GArray %d %s" % (int(n), self.type_())
        if self.opt("<-"): self.eat("chan"); return "GChanOf %s" % self.type_()
        if self.opt("chan"):
            if self.opt("struct"): self.eat("{"); self.eat("}"); return "GChan"
            return "GChanOf %s" % self.type_()
        if self.opt("map"): self.eat("["); k = self.type_(); self.eat("]"); return "GMap %s %s" % (k, self.type_())
        if self.opt("func"):
            depth = 0
            while True:
                t = self.next(); depth += (t == "(") - (t == ")")
                if depth == 0: break
            if self.kind() == "id" and self.peek() not in KEYWORDS: self.type()
            return "GFunc"
        if self.opt("..."): return "GDots %s" % self.type_()
        x = self.ident()
        if self.opt("."): return "GNamed %s" % quote(self.type_name(x + "." + self.ident()))
        if x in INTS: return "GInt %s" % INTS[x]
        return {"bool": "GBool", "string": "GString"}.get(x, "GNamed %s" % quote(x))
    def type_name(self, x):
        """Types of package message are those of SourceMessages.v."""
        return x[8:] if mode == "client" and x.startswith("message.") else x
    def type_(self): return "(%s)" % self.type()
    # --- expressions
    def expr(self, level=0):
        if level == len(BINARY): return self.unary()
        e = self.expr(level + 1)
        while self.peek() in BINARY[level]:
            op = OPS[self.next()]
            e = "(EBin %s %s %s)" % (op, e, self.expr(level + 1))
        return e
    def unary(self):
        for op, c in (("-", "ENeg"), ("!", "ENot"), ("*", "EDeref")):
            if self.opt(op): return "(%s %s)" % (c, self.unary())
        if self.opt("&"):
            if self.peek() in self.types:
                t = self.ident(); return "(ENew %s %s)" % (quote(t), self.fields())
            e = self.unary()
            return "(ENew" + e[8:] if e.startswith("(EStruct ") else "(EAddr %s)" % e
        if self.opt("<-"): return "(ERecv %s)" % self.unary()
        return self.postfix()
    def fields(self):
        """{f: e, ...}"""
        self.eat("{"); fs = []
        while not self.opt("}"):
            f = self.ident(); self.eat(":"); fs.append("(%s, %s)" % (quote(f), self.expr()))
            self.opt(",")
        return coq_list(fs)
    def args(self):
        self.eat("("); out = []; header, self.header = self.header, False
        while not self.opt(")"):
            e = self.expr(); out.append("(ESpread %s)" % e if self.opt("...") else e); self.opt(",")
        self.header = header
        return out
    def literal(self):
        """func(...) ... { ... }: a function of its own, named as Go's compiler names it."""
        self.literals += 1; name, line = "%s.func%d" % (self.within, self.literals), self.line()
        self.eat("func"); ps = self.params(); results = self.results()
        saved = set(self.locals); self.locals |= {x for x, _ in ps}; outside = self.within, self.literals, self.header
        self.within, self.literals, self.header = name, 0, False
        self.decls["funcs"][name] = None
        body = self.block(2); self.locals = saved; self.within, self.literals, self.header = outside
        self.decls["funcs"][name] = (self.path, line, ps, results, self.join(body, 2))
        return "(EFunc %s)" % quote(name)
    def results(self):
        results = []
        if self.opt("("):
            while not self.opt(")"): results.append(self.type_()); self.opt(",")
        elif self.peek() != "{": results.append(self.type_())
        return results
    def postfix(self):
        k, line = self.kind(), self.line()
        if self.opt("("): e = self.expr(); self.eat(")")
        elif k == "num": e = "(EInt %d)" % int(float(self.next()) if "e" in self.peek() else self.next(), 0) if not "e" in self.peek() else "(EInt %d)" % int(float(self.next()))
        elif self.peek() == "func": e = self.literal()
        elif k == "str": e = "(EStr %s)" % text(eval(self.next()))
        elif self.opt("struct"):
            for t in "{}{}": self.eat(t)
            e = "EEmpty"
        elif self.peek() == "map":
            t = self.type_(); self.eat("{"); self.eat("}"); e = "(EMake %s (EInt 0))" % t
        else:
            x = self.ident()
            if x in self.locals:
                e = "(EVar %s)" % quote(x)
                if self.peek() == "(": e = "(EApply %s %s)" % (e, coq_list(self.args()))
            elif x in self.types and self.peek() == "{": e = "(EStruct %s %s)" % (quote(x), self.fields())
            elif x in ("close", "delete"): e = "(ECall %s %s)" % (quote(x), coq_list(self.args()))
            elif x == "nil": e = "ENil"
            elif x in ("true", "false"): e = "(EBool %s)" % x
            elif x == "len": [a] = self.args(); e = "(ELen %s)" % a
            elif x == "append": a, b = self.args(); e = "(EAppend %s %s)" % (a, b)
            elif x == "make":
                self.eat("("); t = self.type_(); n = self.expr() if self.opt(",") else "(EInt 0)"; self.eat(")"); e = "(EMake %s %s)" % (t, n)
            elif x in INTS: [a] = self.args(); e = "(EConv (GInt %s) %s)" % (INTS[x], a)
            elif x == "string": [a] = self.args(); e = "(EConv GString %s)" % a
            elif x in self.imports:
                name = self.imports[x]
                while self.opt("."): name += "." + self.ident()
                if self.peek() == "{" and not self.header: e = "(EStruct %s %s)" % (quote(self.type_name(name)), self.fields())
                else: e = "(ECall %s %s)" % (quote(name), coq_list(self.args())) if self.peek() == "(" else "(EGlobal %s)" % quote(name)
            elif self.package + "." + x in self.decls["funcs"] or self.package + "." + x in ELSEWHERE: e = "(ECall %s %s)" % (quote(self.package + "." + x), coq_list(self.args()))
            elif self.package + "." + x in self.decls["globals"]: e = "(EGlobal %s)" % quote(self.package + "." + x)
            else: raise AssertionError((self.path, line, "unknown name", x))
        while True:
            if self.peek() == "." and self.peek(1) == "(":
                self.next(); self.next(); e = "(EAssert %s %s)" % (e, quote(self.ident())); self.eat(")")
            elif self.opt("."):
                f = self.ident()
                e = "(EMethod %s %s %s)" % (e, quote(f), coq_list(self.args())) if self.peek() == "(" else "(EField %s %s)" % (e, quote(f))
            elif self.opt("["):
                at = lambda: None if self.peek() in (":", "]") else self.expr()
                lo = at()
                if self.opt("]"): e = "(EIndex %s %s)" % (e, lo); continue
                self.eat(":"); hi = at(); mx = at() if self.opt(":") else None
                self.eat("]"); e = "(ESlice %s %s %s %s)" % (e, option(lo), option(hi), option(mx))
            else: return e
    # --- statements: each is a list of lines of Coq
    def simple(self):
        """A statement that can stand before the ; of if and for."""
        if self.peek() == "_": self.locals.add("_")
        start = self.i
        if self.kind() == "id":                       # names := values
            xs = [self.next()]
            while self.opt(","):
                if self.kind() != "id": break
                xs.append(self.next())
            if self.opt(":="):
                if self.opt("range"):
                    e = self.expr(); self.declare(xs); return ("range", xs, e)
                es = [self.expr()]
                while self.opt(","): es.append(self.expr())
                self.declare(xs)
                return "SDefine %s %s" % (coq_list(map(quote, xs)), coq_list(es))
            self.i = start
        ls = [self.expr()]
        while self.opt(","): ls.append(self.expr())
        if self.opt("="):
            es = [self.expr()]
            while self.opt(","): es.append(self.expr())
            return "SAssign %s %s" % (coq_list(ls), coq_list(es))
        [l] = ls
        for op in ("+=", "-=", "*="):
            if self.opt(op): return "SOp %s %s %s" % (l, OPS[op[0]], self.expr())
        if self.opt("<-"): return "SSend %s %s" % (l, self.expr())
        if self.opt("++"): return "SOp %s Add (EInt 1)" % l
        if self.opt("--"): return "SOp %s Sub (EInt 1)" % l
        return "SExpr %s" % l
    def declare(self, xs):
        for x in xs: self.locals.add(x)
    def block(self, indent):
        header, self.header = self.header, False
        self.eat("{"); saved = set(self.locals); out = []
        while not self.opt("}"): out += self.stmt(indent)
        self.locals = saved; self.header = header
        return out
    def join(self, stmts, indent):
        if not stmts: return "[]"
        pad = "\n" + " " * indent
        return "[" + (";" + pad + " ").join(stmts) + "]"
    def stmt(self, indent):
        if self.opt(";"): return []
        if self.opt("return"):
            es = []
            while self.peek() not in (";", "}"): es.append(self.expr()); self.opt(",")
            return ["SReturn %s" % coq_list(es)]
        if self.opt("var"):
            out = []
            def spec():
                x = self.ident()
                if self.peek() == ",":
                    xs = [x]
                    while self.opt(","): xs.append(self.ident())
                    self.eat("="); e = self.expr(); self.declare(xs); out.append("SDefine %s [%s]" % (coq_list(map(quote, xs)), e)); return
                t = None if self.peek() == "=" else self.type_()
                e = self.expr() if self.opt("=") else None
                self.declare([x]); out.append("SVar %s %s %s" % (quote(x), option(t), option(e)))
            if self.opt("("):
                while not self.opt(")"):
                    if not self.opt(";"): spec()
            else: spec()
            return out
        if self.peek() == "if": return [self.if_(indent)]
        if self.opt("go"): return ["SGo %s" % self.expr()]
        if self.opt("defer"): return ["SDefer %s" % self.expr()]
        if self.opt("continue"): return ["SContinue"]
        if self.opt("for"):
            saved = set(self.locals)
            init, post = [], []
            if self.peek() == "{":
                body = self.block(indent + 2); self.locals = saved
                return ["SFor [] (EBool true) []\n%s %s" % (" " * (indent + 2), self.join(body, indent + 3))]
            self.header = True
            first = self.simple()
            if isinstance(first, tuple):
                _, [k, x], e = first; self.header = False
                body = self.block(indent + 2); self.locals = saved
                return ["SRange %s %s %s\n%s %s" % (quote(k), quote(x), e, " " * (indent + 2), self.join(body, indent + 3))]
            if self.opt(";"):
                init = [first]; cond = self.expr(); self.eat(";"); post = [self.simple()]
            else:
                assert first.startswith("SExpr "); cond = first[6:]
            self.header = False
            body = self.block(indent + 2); self.locals = saved
            return ["SFor %s %s %s\n%s %s" % (coq_list(init), cond, coq_list(post), " " * (indent + 2), self.join(body, indent + 3))]
        if self.opt("select"):
            self.eat("{"); cases, default = [], None
            while not self.opt("}"):
                if self.opt("default"):
                    self.eat(":"); saved = set(self.locals); default = []
                    while self.peek() not in ("case", "default", "}"): default += self.stmt(indent + 2)
                    self.locals = saved; continue
                self.eat("case")
                if self.opt("<-"): c = "CRecv %s" % self.expr()
                else: c = self.expr(); self.eat("<-"); c = "CSend %s %s" % (c, self.expr())
                self.eat(":"); saved = set(self.locals); body = []
                while self.peek() not in ("case", "default", "}"): body += self.stmt(indent + 2)
                self.locals = saved
                cases.append("(%s, %s)" % (c, self.join(body, indent + 3)))
            pad = "\n" + " " * (indent + 2)
            if default is not None: return ["SSelectElse%s [%s]%s %s" % (pad, (";" + pad + "  ").join(cases), pad, self.join(default, indent + 3))]
            return ["SSelect%s [%s]" % (pad, (";" + pad + "  ").join(cases))]
        if self.opt("switch"):
            self.header = True; e = self.expr(); self.header = False
            self.eat("{"); cases, default = [], None
            while not self.opt("}"):
                is_default = self.peek() == "default"
                self.next(); c = None if is_default else self.expr(); self.eat(":")
                saved = set(self.locals); body = []
                while self.peek() not in ("case", "default", "}"): body += self.stmt(indent + 2)
                self.locals = saved
                if is_default: default = body
                else: cases.append("(%s, %s)" % (c, self.join(body, indent + 3)))
            pad = "\n" + " " * (indent + 2)
            return ["SSwitch %s%s [%s]%s %s" % (e, pad, (";" + pad + "  ").join(cases), pad, self.join(default or [], indent + 3))]
        return [self.simple()]
    def if_(self, indent):
        self.eat("if"); saved = set(self.locals); init = []; self.header = True
        first = self.simple()
        if self.opt(";"): init = [first]; cond = self.expr()
        else: assert first.startswith("SExpr "), first; cond = first[6:]
        self.header = False
        yes = self.block(indent + 2); no = []
        if self.opt("else"): no = [self.if_(indent + 2)] if self.peek() == "if" else self.block(indent + 2)
        self.locals = saved
        pad = "\n" + " " * (indent + 2)
        return "SIf %s %s%s %s%s %s" % (coq_list(init), cond, pad, self.join(yes, indent + 3), pad, self.join(no, indent + 3))
    # --- declarations
    def params(self):
        """(a, b T, c U) -> [(name, type)]"""
        self.eat("("); out = []
        while not self.opt(")"):
            names = [self.ident()]
            while self.opt(","): names.append(self.ident())
            t = self.type_(); out += [(x, t) for x in names]
            self.opt(",")
        return out
    def file(self, only_names):
        self.locals, self.types = set(), self.decls["types"]
        self.eat("package"); self.package = self.ident(); self.eat(";")
        while self.i < len(self.toks):
            if self.opt(";"): continue
            line, kw = self.line(), self.next()
            if kw == "import":
                paths = []
                if self.opt("("):
                    while not self.opt(")"):
                        if not self.opt(";"): paths.append(eval(self.next()))
                else: paths.append(eval(self.next()))
                self.imports.update({p.split("/")[-1]: p.split("/")[-1] for p in paths})
            elif kw == "type":
                name = self.ident()
                if self.opt("interface"):
                    while self.next() != "}": pass
                    continue
                if self.peek() in ("func", "map"): self.type(); continue
                self.eat("struct"); self.eat("{"); fs = []
                while not self.opt("}"):
                    if self.opt(";"): continue
                    f = self.ident(); fs.append((f, self.type_()))
                self.types[name] = fs
            elif kw in ("const", "var"):
                def spec():
                    x = self.package + "." + self.ident(); t = None if self.peek() == "=" else self.type_(); self.eat("=")
                    self.decls["globals"][x] = None
                    if only_names:
                        while self.peek() not in (";", ")"): self.next() if self.peek() != "(" else [self.next(), self.next(), self.next()]
                    else: self.decls["globals"][x] = (t, self.expr())
                if self.opt("("):
                    while not self.opt(")"):
                        if not self.opt(";"): spec()
                else: spec()
            elif kw == "func":
                recv = self.params() if self.peek() == "(" else []
                name = self.ident()
                if recv: name = re.sub(r'.*"(\w+)".*', r"\1", recv[0][1]) + "." + name
                else: name = self.package + "." + name
                ps = recv + self.params(); results = self.results()
                if only_names:
                    depth = 0
                    while True:
                        t = self.next(); depth += (t == "{") - (t == "}")
                        if depth == 0: break
                    self.decls["funcs"][name] = None
                else:
                    self.locals = {x for x, _ in ps}; self.within, self.literals, self.header = name, 0, False
                    self.decls["funcs"].setdefault(name)
                    body = self.block(2); self.locals = set()
                    self.decls["funcs"][name] = (self.path, line, ps, results, self.join(body, 2))
            else: raise AssertionError((self.path, line, kw))

def main():
    decls = {"types": {}, "globals": {}, "funcs": {}}
    for only_names in (True, False):
        for path in FILES: Parser(path, decls).file(only_names)
    out = ["(** * %s as terms of GoLang.v" % TITLE, "",
           "    Written by tools/go_source.py, which see. *)", "From Coq Require Import String.", "From Verif Require Import GoBase GoLang.", "Local Open Scope string_scope.", "Local Open Scope list_scope.", "Local Open Scope Z_scope.", ""]
    ident = lambda name: "go_" + name.replace(".", "_")
    for name, (path, line, ps, results, body) in decls["funcs"].items():
        out += ["(** %s:%d *)" % (path, line), "Definition %s : func := mkFunc %s %s" % (ident(name), coq_list("(%s, %s)" % (quote(x), t[1:-1]) for x, t in ps), coq_list(t[1:-1] for t in results)), "  %s." % body]
    out += ["", "Definition %s : package := mkPackage" % NAME,
            "  [" + ";\n   ".join("(%s, [%s])" % (quote(t), "; ".join("(%s, %s)" % (quote(f), ty[1:-1]) for f, ty in fs)) for t, fs in decls["types"].items()) + "]",
            "  [" + ";\n   ".join("(%s, (%s, %s))" % (quote(g), option(t), e) for g, (t, e) in decls["globals"].items()) + "]",
            "  [" + ";\n   ".join("(%s, %s)" % (quote(f), ident(f)) for f in decls["funcs"]) + "]."]
    print("\n".join(out))
main()
