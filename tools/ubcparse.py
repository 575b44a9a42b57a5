"""Expression parsers for the unavoidable-bit-condition code (Go and C flavours).

Produces a small AST (nested tuples) that gen_ubc.py prints as Gallina.  The two
languages have different operator precedence, so each has its own binding table.
"""
import re

TOK = re.compile(r"\s*(0x[0-9a-fA-F]+|\d+|[A-Za-z_]\w*|<<|>>|\|\||&&|!=|==|&\^|[-+*&|^~!()\[\],{}=;])")

# binary precedence: higher binds tighter
GO = {"||": 1, "&&": 2, "!=": 3, "==": 3, "+": 4, "-": 4, "|": 4, "^": 4,
      "*": 5, "<<": 5, ">>": 5, "&": 5, "&^": 5}
C = {"||": 1, "&&": 2, "|": 3, "^": 4, "&": 5, "!=": 6, "==": 6,
     "<<": 7, ">>": 7, "+": 8, "-": 8, "*": 9}


def tokens(s, line0=1):
    """the tokens and, in parallel, their line numbers"""
    pos, out, lines = 0, [], []
    s = s.rstrip()
    while pos < len(s):
        m = TOK.match(s, pos)
        if not m:
            raise SyntaxError(s[pos:pos + 40])
        out.append(m.group(1))
        lines.append(line0 + s.count("\n", 0, m.start(1)))
        pos = m.end()
    return out, lines


class P:
    def __init__(self, toks, lang):
        (self.t, self.lines), self.i, self.lang = toks, 0, lang
        self.prec = GO if lang == "go" else C

    def peek(self):
        return self.t[self.i] if self.i < len(self.t) else None

    def next(self):
        x = self.t[self.i]
        self.i += 1
        return x

    def expect(self, x):
        y = self.next()
        if x != y:
            raise SyntaxError(f"expected {x}, got {y} at {self.t[max(0,self.i-8):self.i+5]}")

    def unary(self):
        t = self.next()
        if t == "(":
            e = self.expr()
            self.expect(")")
            return e
        if (t == "^" and self.lang == "go") or (t == "~" and self.lang == "c"):
            return ("Not", self.unary())
        if t == "!" and self.lang == "c":
            return ("LNot", self.unary())
        if t == "not" and self.lang == "go":
            self.expect("(")
            e = self.expr()
            self.expect(")")
            return ("LNot", e)
        if t == "W":
            self.expect("[")
            n = int(self.next())
            self.expect("]")
            return ("W", n)
        if t == "mask":
            return ("Mask",)
        if re.match(r"DV_\w+_bit$", t):
            return ("DV", t)
        if t in ("uint32", "uint32_t"):       # conversion uint32(x)
            self.expect("(")
            e = self.expr()
            self.expect(")")
            return e
        if re.match(r"\d", t):
            return ("Const", int(t, 0))
        raise SyntaxError(f"unexpected {t}")

    def expr(self, minp=1):
        l = self.unary()
        while self.peek() in self.prec and self.prec[self.peek()] >= minp:
            op = self.next()
            r = self.expr(self.prec[op] + 1)
            l = (op, l, r)
        return l

    # ---- statements
    def block(self):
        """statements up to the closing brace or the end"""
        out = []
        while self.peek() not in (None, "}"):
            out.append(self.stmt())
        return out

    def body(self):
        if self.peek() == "{":
            self.next()
            b = self.block()
            self.expect("}")
            return b
        return [self.stmt()]

    def stmt(self):
        t, ln = self.peek(), self.lines[self.i]
        if t == "if":
            self.next()
            if self.lang == "c":
                self.expect("(")
                c = self.expr()
                self.expect(")")
            else:
                c = self.expr()
            return ("If", c, self.body(), ln)
        if t == "mask":
            self.next()
            self.expect("&")
            self.expect("=")
            e = self.expr()
            if self.lang == "c":
                self.expect(";")
            return ("AndAssign", e, ln)
        raise SyntaxError(f"statement {t}")


def go_source(path="/repo/ubc/ubc.go"):
    lines = open(path).read().split("\n")
    a = next(i for i, l in enumerate(lines) if "mask := uint32(0xFFFFFFFF)" in l)
    b = next(i for i, l in enumerate(lines) if i > a and l.strip() == "return mask")
    return lines[a + 1:b], a + 2, b


def c_source(path="/repo/cgo/ubc_check.c"):
    lines = open(path).read().split("\n")
    a = next(i for i, l in enumerate(lines) if "uint32_t mask = ~((uint32_t)(0));" in l)
    b = next(i for i, l in enumerate(lines) if i > a and "dvmask[0] = mask;" in l)
    return lines[a + 1:b], a + 2, b


def parse(lang):
    lines, a, b = go_source() if lang == "go" else c_source()
    src = "\n".join(lines)
    p = P(tokens(src, a), lang)
    # Go inserts a semicolon at line ends; the grammar used here needs none because
    # a statement never starts with a token that could continue an expression.
    prog = p.block()
    assert p.peek() is None
    return prog, a, b
