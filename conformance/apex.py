"""A small parser for Apex that builds trees of the shape of tree-sitter-sfapex.

It is used to turn the test inputs of /repo/tests into Coq terms.  Nothing in the
proofs depends on it.  Comments become children of the smallest node around them,
as tree-sitter places its extras.
"""
import re, sys

class ParseError(Exception):
    pass

class Node:
    __slots__ = ('kind', 'named', 'extra', 'field', 's', 'e', 'kids')
    def __init__(self, kind, named, s, e, kids=(), field=None, extra=False):
        self.kind, self.named, self.s, self.e = kind, named, s, e
        self.kids, self.field, self.extra = list(kids), field, extra
    def show(self, src, d=0):
        print('  ' * d + (self.field + ': ' if self.field else '') + (self.kind if self.named else repr(self.kind)),
              '' if self.kids else src[self.s:self.e])
        for k in self.kids:
            k.show(src, d + 1)

TOK = re.compile(r'''
  (?P<ws>\s+)
 |(?P<lc>//[^\n]*)
 |(?P<bc>/\*.*?\*/)
 |(?P<str>'(?:[^'\\]|\\.)*')
 |(?P<date>\d{4}-\d\d-\d\d(?:T\d\d:\d\d:\d\d(?:\.\d+)?(?:Z|[+-]\d\d:\d\d))?)
 |(?P<num>\d+\.\d+[dD]?|\.\d+[dD]?|\d+[dD]|\d+[lL]?)
 |(?P<id>[A-Za-z_$][A-Za-z_0-9$]*)
 |(?P<op>>>>=|<<=|>>=|===|!==|\?\?|\?\.|=>|==|!=|<>|<=|>=|&&|\|\||\+\+|--|\+=|-=|\*=|/=|%=|&=|\|=|\^=|<<|[{}()\[\];,.@?:=<>!~+\-*/%&|^])
''', re.X | re.S)

def lex(src):
    toks, comments, i = [], [], 0
    while i < len(src):
        m = TOK.match(src, i)
        if not m:
            raise ParseError('lex %d %r' % (i, src[i:i + 20]))
        k = m.lastgroup
        if k in ('lc', 'bc'):
            e = m.end()
            if k == 'lc' and src[e - 1] == '\r':
                e -= 1
            comments.append(Node('line_comment' if k == 'lc' else 'block_comment', True, m.start(), e, extra=True))
        elif k != 'ws':
            toks.append((k, m.group(), m.start(), m.end()))
        i = m.end()
    return toks, comments

MODS = {'abstract', 'final', 'global', 'override', 'private', 'protected', 'public', 'static',
        'transient', 'virtual', 'testmethod', 'webservice'}
ASSIGN = {'=', '+=', '-=', '*=', '/=', '%=', '&=', '|=', '^=', '<<=', '>>=', '>>>='}
PREC = [['||'], ['&&'], ['|'], ['^'], ['&'], ['==', '!=', '===', '!==', '<>'],
        ['>', '<', '>=', '<=', 'instanceof'], ['<<', '>>', '>>>'], ['+', '-'], ['*', '/', '%']]
DML = {'insert', 'update', 'delete', 'undelete', 'merge', 'upsert'}
RESERVED = {'new', 'return', 'if', 'else', 'for', 'while', 'do', 'try', 'throw', 'instanceof', 'class', 'null', 'true', 'false', 'switch'}

class P:
    def __init__(self, src):
        self.src = src
        self.t, self.comments = lex(src)
        self.i = 0
    # ---- tokens
    def tx(self, d=0):
        return self.t[self.i + d][1] if self.i + d < len(self.t) else ''
    def lo(self, d=0):
        return self.tx(d).lower()
    def kd(self, d=0):
        return self.t[self.i + d][0] if self.i + d < len(self.t) else 'eof'
    def fail(self, why=''):
        raise ParseError('%s at %r' % (why, ' '.join(x[1] for x in self.t[self.i:self.i + 6])))
    def sign(self, w, field=None, kind=None):
        if self.lo() != w.lower():
            self.fail('expected ' + w)
        k, x, s, e = self.t[self.i]
        self.i += 1
        return Node(kind or w, False, s, e, field=field)
    def leaf(self, kind, field=None):
        k, x, s, e = self.t[self.i]
        self.i += 1
        return Node(kind, True, s, e, field=field)
    def mk(self, kind, kids, field=None):
        return Node(kind, True, kids[0].s, kids[-1].e, kids, field)
    def wrapleaf(self, kind, field=None):
        """a named node around one anonymous token"""
        k, x, s, e = self.t[self.i]
        self.i += 1
        return Node(kind, True, s, e, [Node(x, False, s, e)], field)
    def f(self, n, field):
        n.field = field
        return n
    def attempt(self, p):
        i = self.i
        try:
            return p()
        except ParseError:
            self.i = i
            return None
    def ident(self, field=None):
        if self.kd() != 'id':
            self.fail('identifier')
        return self.leaf('identifier', field)
    # ---- file
    def file(self):
        kids = []
        while self.i < len(self.t):
            kids.append(self.trigger() if self.lo() == 'trigger' else self.decl(top=True))
        root = Node('parser_output', True, 0, len(self.src), kids)
        if kids or self.comments:
            root.s = min([k.s for k in kids] + [c.s for c in self.comments])
        root.e = len(self.src)
        for c in self.comments:
            place(root, c)
        return root
    def modifiers(self):
        kids = []
        while True:
            w = self.lo()
            if w == '@':
                kids.append(self.annotation())
            elif w in ('with', 'without', 'inherited') and self.lo(1) == 'sharing':
                a = self.sign(w); b = self.sign('sharing')
                kids.append(self.mk('modifier', [self.mk(w + '_sharing', [a, b])]))
            elif w in MODS:
                if w == 'static' and self.tx(1) == '{':
                    break
                kids.append(self.mk('modifier', [self.wrapleaf('testMethod' if w == 'testmethod' else w)]))
            else:
                break
        return [self.mk('modifiers', kids)] if kids else []
    def annotation(self):
        kids = [self.sign('@'), self.ident('name')]
        if self.tx() == '(':
            a = [self.sign('(')]
            if self.kd() == 'id' and self.tx(1) == '=':
                while self.tx() != ')':
                    if self.tx() == ',':
                        a.append(self.sign(','))
                    a.append(self.mk('annotation_key_value', [self.ident('key'), self.wrapleaf('assignment_operator') if False else self.sign('='), self.f(self.expr(), 'value')]))
            elif self.tx() != ')':
                a.append(self.f(self.expr(), 'value'))
            a.append(self.sign(')'))
            kids.append(self.mk('annotation_argument_list', a, 'arguments'))
        return self.mk('annotation', kids)
    def decl(self, top=False, cls=None, iface=False):
        if not top and self.tx() == '{':
            return self.block()
        if not top and self.lo() == 'static' and self.tx(1) == '{':
            return self.mk('static_initializer', [self.sign('static'), self.block()])
        m = self.modifiers()
        w = self.lo()
        if w == 'class' and self.kd(1) == 'id':
            k = m + [self.sign('class'), self.ident('name')]
            if self.tx() == '<':
                k.append(self.type_parameters())
            if self.lo() == 'extends':
                k.append(self.mk('superclass', [self.sign('extends'), self.type()]))
            if self.lo() == 'implements':
                k.append(self.mk('interfaces', [self.sign('implements'), self.type_list()]))
            k.append(self.body('class_body', lambda: self.decl(cls=True)))
            return self.mk('class_declaration', k)
        if w == 'interface':
            k = m + [self.sign('interface'), self.ident('name')]
            if self.tx() == '<':
                k.append(self.type_parameters())
            if self.lo() == 'extends':
                k.append(self.mk('extends_interfaces', [self.sign('extends'), self.type_list()]))
            k.append(self.body('interface_body', lambda: self.decl(iface=True)))
            return self.mk('interface_declaration', k)
        if w == 'enum':
            k = m + [self.sign('enum'), self.ident('name')]
            if self.lo() == 'implements':
                k.append(self.mk('interfaces', [self.sign('implements'), self.type_list()]))
            b = [self.sign('{')]
            while self.tx() != '}':
                if self.tx() == ',':
                    b.append(self.sign(','))
                else:
                    b.append(self.mk('enum_constant', self.modifiers() + [self.ident('name')]))
            b.append(self.sign('}'))
            k.append(self.mk('enum_body', b, 'body'))
            return self.mk('enum_declaration', k)
        if top:
            self.fail('declaration')
        if self.kd() == 'id' and self.tx(1) == '(':
            k = m + [self.ident('name'), self.formal_parameters(), self.constructor_body()]
            return self.mk('constructor_declaration', k)
        k = m + [self.f(self.type(), 'type')]
        if self.kd() == 'id' and self.tx(1) == '(':
            k += [self.ident('name'), self.formal_parameters()]
            k.append(self.f(self.block(), 'body') if self.tx() == '{' else self.sign(';'))
            return self.mk('method_declaration', k)
        k += self.declarators()
        if self.tx() == '{':
            a = [self.sign('{')]
            while self.tx() != '}':
                m = self.modifiers()
                if self.lo() not in ('get', 'set'):
                    self.fail('accessor')
                c = m + [self.sign(self.lo(), 'accessor')]
                c.append(self.f(self.block(), 'body') if self.tx() == '{' else self.sign(';'))
                a.append(self.mk('accessor_declaration', c))
            a.append(self.sign('}'))
            k.append(self.mk('accessor_list', a))
        else:
            k.append(self.sign(';'))
        return self.mk('constant_declaration' if iface else 'field_declaration', k)
    def trigger(self):
        k = [self.sign('trigger'), self.ident('name'), self.sign('on'), self.ident('object'), self.sign('(')]
        while True:
            a = self.lo(); b = self.lo(1)
            if a not in ('before', 'after'):
                self.fail('event')
            x = self.sign(a); y = self.sign(b)
            k.append(self.mk('trigger_event', [self.mk(a + '_' + b, [x, y])]))
            if self.tx() != ',':
                break
            k.append(self.sign(','))
        k.append(self.sign(')'))
        k.append(self.mk('trigger_body', [self.block(decls=True)], 'body'))
        return self.mk('trigger_declaration', k)
    def body(self, kind, item):
        k = [self.sign('{')]
        while self.tx() != '}':
            k.append(self.sign(';') if self.tx() == ';' else item())
        k.append(self.sign('}'))
        return self.mk(kind, k, 'body')
    def formal_parameters(self):
        k = [self.sign('(')]
        while self.tx() != ')':
            if k[1:]:
                k.append(self.sign(','))
            k.append(self.formal_parameter())
        k.append(self.sign(')'))
        return self.mk('formal_parameters', k, 'parameters')
    def formal_parameter(self):
        return self.mk('formal_parameter', self.modifiers() + [self.f(self.type(), 'type'), self.ident('name')])
    def constructor_body(self):
        k = [self.sign('{')]
        if self.lo() in ('this', 'super') and self.tx(1) == '(':
            i = self.i
            c = [self.f(self.leaf(self.lo()), 'constructor'), self.args()]
            if self.tx() == ';':
                k.append(self.mk('explicit_constructor_invocation', c + [self.sign(';')]))
            else:
                self.i = i
        while self.tx() != '}':
            k.append(self.stmt())
        k.append(self.sign('}'))
        return self.mk('constructor_body', k, 'body')
    # ---- types
    def type_parameters(self):
        k = [self.sign('<')]
        while True:
            k.append(self.mk('type_parameter', [self.leaf('type_identifier')]))
            if self.tx() != ',':
                break
            k.append(self.sign(','))
        k.append(self.sign('>'))
        return self.mk('type_parameters', k)
    def type_list(self):
        k = [self.type()]
        while self.tx() == ',':
            k.append(self.sign(','))
            k.append(self.type())
        return self.mk('type_list', k)
    def type_args(self):
        k = [self.sign('<')]
        if self.tx() != '>':
            k.append(self.type())
            while self.tx() == ',':
                k.append(self.sign(','))
                k.append(self.type())
        k.append(self.sign('>'))
        return self.mk('type_arguments', k)
    def type(self, dims=True):
        if self.kd() != 'id' or self.lo() in RESERVED:
            self.fail('type')
        if self.lo() == 'void':
            n = self.leaf('void_type')
        elif self.tx() == 'boolean' and self.tx(1) != '.':
            n = self.leaf('boolean_type')
        elif self.lo() == 'java' and self.tx(1) == ':':
            k = [self.sign('java'), self.sign(':')]
            return self.mk('java_type', k + [self.type(False)])
        else:
            n = self.leaf('type_identifier')
            while True:
                if self.tx() == '.' and self.kd(1) == 'id' and self.lo(1) != 'class':
                    n = self.mk('scoped_type_identifier', [n, self.sign('.'), self.leaf('type_identifier')])
                elif self.tx() == '<' and n.kind != 'generic_type':
                    n = self.mk('generic_type', [n, self.type_args()])
                else:
                    break
        if dims and self.tx() == '[' and self.tx(1) == ']':
            d = self.dimensions()
            n = self.mk('array_type', [self.f(n, 'element'), d])
        return n
    def dimensions(self):
        k = []
        while self.tx() == '[' and self.tx(1) == ']':
            k += [self.sign('['), self.sign(']')]
        return self.mk('dimensions', k, 'dimensions')
    # ---- statements
    def declarators(self):
        k = [self.declarator()]
        while self.tx() == ',':
            k.append(self.sign(','))
            k.append(self.declarator())
        return k
    def declarator(self):
        k = [self.ident('name')]
        if self.tx() == '=':
            k.append(self.wrapleaf('assignment_operator'))
            k.append(self.f(self.expr(), 'value'))
        elif self.tx() not in (';', ',', '{'):
            self.fail('declarator')
        return self.mk('variable_declarator', k, 'declarator')
    def local(self):
        m = self.modifiers()
        k = m + [self.f(self.type(), 'type')]
        if self.kd() != 'id' or self.lo() in ('instanceof',):
            self.fail('local')
        k += self.declarators()
        k.append(self.sign(';'))
        return self.mk('local_variable_declaration', k)
    def block(self, decls=False):
        k = [self.sign('{')]
        while self.tx() != '}':
            k.append(self.stmt(decls))
        k.append(self.sign('}'))
        return self.mk('block', k)
    def paren(self, field=None):
        return self.mk('parenthesized_expression', [self.sign('('), self.expr(), self.sign(')')], field)
    def stmt(self, decls=False):
        w = self.lo()
        if w == '{':
            return self.block()
        if w == ';':
            return self.sign(';')
        if w == 'if' and self.tx(1) == '(':
            k = [self.sign('if'), self.paren('condition'), self.f(self.stmt(), 'consequence')]
            if self.lo() == 'else':
                k.append(self.sign('else'))
                k.append(self.f(self.stmt(), 'alternative'))
            return self.mk('if_statement', k)
        if w == 'while' and self.tx(1) == '(':
            return self.mk('while_statement', [self.sign('while'), self.paren('condition'), self.f(self.stmt(), 'body')])
        if w == 'do' and self.tx(1) == '{':
            return self.mk('do_statement', [self.sign('do'), self.f(self.block(), 'body'), self.sign('while'), self.paren('condition'), self.sign(';')])
        if w == 'for' and self.tx(1) == '(':
            return self.for_()
        if w == 'try' and self.tx(1) == '{':
            k = [self.sign('try'), self.f(self.block(), 'body')]
            while self.lo() == 'catch':
                k.append(self.mk('catch_clause', [self.sign('catch'), self.sign('('), self.formal_parameter(), self.sign(')'), self.f(self.block(), 'body')]))
            if self.lo() == 'finally':
                k.append(self.mk('finally_clause', [self.sign('finally'), self.block()]))
            return self.mk('try_statement', k)
        if w == 'switch' and self.lo(1) == 'on':
            k = [self.sign('switch'), self.sign('on'), self.f(self.expr(), 'condition')]
            b = [self.sign('{')]
            while self.tx() != '}':
                l = [self.sign('when')]
                if self.lo() == 'else':
                    l.append(self.sign('else'))
                else:
                    def so():
                        x = [self.type(), self.ident()]
                        if self.tx() != '{':
                            self.fail('so')
                        return self.mk('when_sobject_type', x)
                    x = self.attempt(so)
                    if x:
                        l.append(x)
                    else:
                        l.append(self.expr())
                        while self.tx() == ',':
                            l.append(self.sign(','))
                            l.append(self.expr())
                b.append(self.mk('switch_rule', [self.mk('switch_label', l), self.block()]))
            b.append(self.sign('}'))
            k.append(self.mk('switch_block', b, 'body'))
            return self.mk('switch_expression', k)
        if w == 'return':
            k = [self.sign('return')]
            if self.tx() != ';':
                k.append(self.expr())
            return self.mk('return_statement', k + [self.sign(';')])
        if w in ('break', 'continue') and (self.tx(1) == ';'):
            return self.mk(w + '_statement', [self.sign(w), self.sign(';')])
        if w == 'throw':
            return self.mk('throw_statement', [self.sign('throw'), self.expr(), self.sign(';')])
        if w == 'system' and self.tx(1) == '.' and self.lo(2) == 'runas':
            def runas():
                a, b = self.sign('System'), None
                self.sign('.')
                b = self.sign('runAs')
                k = [Node('System.runAs', False, a.s, b.e), self.paren('user')]
                return self.mk('run_as_statement', k + [self.block()])
            x = self.attempt(runas)
            if x:
                return x
        if decls:
            i = self.i
            m = self.modifiers()
            w2 = self.lo()
            self.i = i
            if w2 in ('class', 'interface', 'enum') or m and self.attempt(self.local) is None:
                self.i = i
                return self.decl()
            self.i = i
            x = self.attempt(lambda: self.method_only())
            if x:
                return x
        if w in DML and self.kd(1) in ('id', 'str') or w in DML and self.tx(1) in ('[', '('):
            x = self.attempt(lambda: self.mk('expression_statement', [self.dml(), self.sign(';')]))
            if x:
                return x
        x = self.attempt(self.local)
        if x:
            return x
        return self.mk('expression_statement', [self.expr(), self.sign(';')])
    def method_only(self):
        k = self.modifiers() + [self.f(self.type(), 'type'), self.ident('name')]
        if self.tx() != '(':
            self.fail('method')
        k += [self.formal_parameters(), self.f(self.block(), 'body')]
        return self.mk('method_declaration', k)
    def for_(self):
        def enhanced():
            k = [self.sign('for'), self.sign('(')] + self.modifiers() + [self.f(self.type(), 'type'), self.ident('name'), self.sign(':'),
                 self.f(self.expr(), 'value'), self.sign(')'), self.f(self.stmt(), 'body')]
            return self.mk('enhanced_for_statement', k)
        x = self.attempt(enhanced)
        if x:
            return x
        k = [self.sign('for'), self.sign('(')]
        l = self.attempt(self.local)
        if l:
            k.append(self.f(l, 'init'))
        else:
            if self.tx() != ';':
                k.append(self.f(self.expr(), 'init'))
                while self.tx() == ',':
                    k.append(self.sign(','))
                    k.append(self.f(self.expr(), 'init'))
            k.append(self.sign(';'))
        if self.tx() != ';':
            k.append(self.f(self.expr(), 'condition'))
        k.append(self.sign(';'))
        if self.tx() != ')':
            k.append(self.f(self.expr(), 'update'))
            while self.tx() == ',':
                k.append(self.sign(','))
                k.append(self.f(self.expr(), 'update'))
        k.append(self.sign(')'))
        k.append(self.f(self.stmt(), 'body'))
        return self.mk('for_statement', k)
    def dml(self):
        w = self.lo()
        k = [self.mk('dml_type', [self.wrapleaf(w)])]
        if self.lo() == 'as' and self.lo(1) in ('user', 'system'):
            a = self.sign('as')
            k.append(self.mk('dml_security_mode', [a, self.wrapleaf(self.lo())]))
        k.append(self.f(self.expr(), 'target'))
        if w == 'merge' and self.tx() != ';':
            k.append(self.f(self.expr(), 'merge_with'))
        if w == 'upsert' and self.tx() != ';':
            k.append(self.f(self.type(), 'upsert_key'))
        return self.mk('dml_expression', k)
    # ---- expressions
    def expr(self):
        c = self.binary(-1)
        if self.tx() == '?':
            k = [self.f(c, 'condition'), self.sign('?'), self.f(self.expr(), 'consequence'), self.sign(':'), self.f(self.expr(), 'alternative')]
            return self.mk('ternary_expression', k)
        if self.tx() in ASSIGN:
            o = self.wrapleaf('assignment_operator', 'operator')
            return self.mk('assignment_expression', [self.f(c, 'left'), o, self.f(self.expr(), 'right')])
        return c
    def shift(self):
        """>> and >>> are lexed as single > signs"""
        if self.tx() == '>' and self.tx(1) == '>' and self.t[self.i][3] == self.t[self.i + 1][2]:
            if self.tx(2) == '>' and self.t[self.i + 1][3] == self.t[self.i + 2][2]:
                return '>>>'
            return '>>'
        if self.tx() == '>' and self.tx(1) == '=':
            return '> ='
        return self.lo()
    def binary(self, lev):
        if lev == -1:
            l = self.binary(0)
            if self.tx() == '??':
                o = self.sign('??', 'operator')
                return self.mk('binary_expression', [self.f(l, 'left'), o, self.f(self.binary(-1), 'right')])
            return l
        if lev == len(PREC):
            return self.unary()
        l = self.binary(lev + 1)
        while True:
            o = self.shift()
            if o == '> =' and '>=' in PREC[lev]:
                a, b = self.sign('>'), self.sign('=')
                op = Node('>=', False, a.s, b.e, field='operator')
                l = self.mk('binary_expression', [self.f(l, 'left'), op, self.f(self.binary(lev + 1), 'right')])
                continue
            if o not in PREC[lev]:
                return l
            if o == 'instanceof':
                l = self.mk('instanceof_expression', [self.f(l, 'left'), self.sign('instanceof'), self.f(self.type(), 'right')])
                continue
            if o in ('>>', '>>>'):
                s = self.t[self.i][2]
                self.i += len(o)
                op = Node(o, False, s, s + len(o), field='operator')
            else:
                op = self.sign(o, 'operator')
            l = self.mk('binary_expression', [self.f(l, 'left'), op, self.f(self.binary(lev + 1), 'right')])
    def unary(self):
        w = self.tx()
        if w in ('+', '-', '!', '~'):
            return self.mk('unary_expression', [self.sign(w, 'operator'), self.f(self.unary(), 'operand')])
        if w in ('++', '--'):
            return self.mk('update_expression', [self.sign(w, 'operator'), self.f(self.unary(), 'operand')])
        if w == '(':
            def cast():
                k = [self.sign('('), self.f(self.type(), 'type'), self.sign(')')]
                if not (self.kd() in ('id', 'str', 'num') and self.lo() != 'instanceof' or self.tx() in ('(', '[', '!', '~')):
                    self.fail('cast')
                return self.mk('cast_expression', k + [self.f(self.unary(), 'value')])
            x = self.attempt(cast)
            if x:
                return x
        e = self.primary()
        if self.tx() in ('++', '--'):
            e = self.mk('update_expression', [self.f(e, 'operand'), self.sign(self.tx(), 'operator')])
        return e
    def args(self):
        k = [self.sign('(')]
        while self.tx() != ')':
            if k[1:]:
                k.append(self.sign(','))
            k.append(self.expr())
        k.append(self.sign(')'))
        return self.mk('argument_list', k, 'arguments')
    def primary(self):
        e = self.atom()
        while True:
            w = self.tx()
            if w in ('.', '?.') and self.kd(1) == 'id':
                dot = self.sign('.') if w == '.' else self.wrapleaf('safe_navigation_operator')
                if self.tx(1) == '(':
                    n = self.ident('name')
                    e = self.mk('method_invocation', [self.f(e, 'object'), dot, n, self.args()])
                else:
                    n = self.leaf('this', 'field') if self.lo() == 'this' else self.ident('field')
                    e = self.mk('field_access', [self.f(e, 'object'), dot, n])
            elif w == '[':
                e = self.mk('array_access', [self.f(e, 'array'), self.sign('['), self.f(self.expr(), 'index'), self.sign(']')])
            else:
                return e
    def array_init(self, field=None):
        k = [self.sign('{')]
        while self.tx() != '}':
            if k[1:]:
                k.append(self.sign(','))
                if self.tx() == '}':
                    break
            k.append(self.array_init() if self.tx() == '{' else self.expr())
        k.append(self.sign('}'))
        return self.mk('array_initializer', k, field)
    def atom(self):
        k, w = self.kd(), self.lo()
        if k == 'str':
            return self.leaf('string_literal')
        if k == 'num':
            x = self.tx()
            return self.leaf('decimal_floating_point_literal' if '.' in x or x[-1] in 'dD' else 'int')
        if w == '(':
            return self.paren()
        if w == '[':
            if self.lo(1) == 'find':
                return self.mk('query_expression', [self.sign('['), self.sosl(), self.sign(']')])
            return self.mk('query_expression', [self.sign('['), self.soql(), self.sign(']')])
        if k != 'id':
            self.fail('expression')
        if w in ('true', 'false'):
            return self.wrapleaf('boolean')
        if w == 'null':
            return self.leaf('null_literal')
        if w == 'this':
            if self.tx(1) == '(':
                n = self.ident('name')
                return self.mk('method_invocation', [n, self.args()])
            return self.leaf('this')
        if w == 'super':
            if self.tx(1) == '(':
                n = self.ident('name')
                return self.mk('method_invocation', [n, self.args()])
            return self.leaf('super')
        if w == 'new':
            n = self.sign('new')
            ty = self.f(self.type(False), 'type')
            if self.tx() == '(':
                return self.mk('object_creation_expression', [n, ty, self.args()])
            if self.tx() == '{':
                def mapped():
                    b = [self.sign('{')]
                    while self.tx() != '}':
                        if b[1:]:
                            b.append(self.sign(','))
                        b.append(self.mk('map_key_initializer', [self.expr(), self.sign('=>'), self.expr()]))
                    b.append(self.sign('}'))
                    if len(b) == 2 and not self.src[ty.s:ty.e].lower().startswith('map'):
                        self.fail('map')
                    return self.mk('map_creation_expression', [n, ty, self.mk('map_initializer', b, 'value')])
                x = self.attempt(mapped)
                if x:
                    return x
                return self.mk('array_creation_expression', [n, ty, self.array_init('value')])
            if self.tx() == '[':
                c = [n, ty]
                if self.tx(1) == ']':
                    c.append(self.dimensions())
                    if self.tx() == '{':
                        c.append(self.array_init('value'))
                    return self.mk('array_creation_expression', c)
                while self.tx() == '[' and self.tx(1) != ']':
                    c.append(self.mk('dimensions_expr', [self.sign('['), self.expr(), self.sign(']')]))
                return self.mk('array_creation_expression', c)
            self.fail('new')
        if w in RESERVED:
            self.fail('expression')
        if w == 'java' and self.tx(1) == ':':
            a = [self.sign('java'), self.sign(':')]
            n = self.ident()
            while self.tx() == '.' and self.tx(2) != '(':
                n = self.mk('field_access', [self.f(n, 'object'), self.sign('.'), self.ident('field')])
            return self.mk('java_field_access', a + [n])
        if w == 'package' and self.lo(2) == 'version':
            a = [self.sign('Package'), self.sign('.'), self.sign('Version')]
            a = [Node('Package.Version.', False, a[0].s, a[-1].e + 1)]
            if self.tx() == '.':
                self.i += 1
                return self.mk('version_expression', a + [self.sign('Request')])
            k, x, s, e = self.t[self.i]
            self.i += 1
            e2 = e
            if self.kd() == 'num':
                e2 = self.t[self.i][3]
                self.i += 1
            return self.mk('version_expression', a + [Node('version_number', True, s + 1, e2, field='version_num')])
        def literal():
            ty = self.type()
            return self.mk('class_literal', [ty, self.sign('.'), self.sign('class')])
        x = self.attempt(literal)
        if x:
            return x
        if self.tx(1) == '(':
            n = self.ident('name')
            return self.mk('method_invocation', [n, self.args()])
        if w in DML and self.kd(1) in ('id',) and self.lo(1) not in ('instanceof',):
            return self.dml()
        return self.ident()
    # ---- queries
    def words(self, ws):
        return [self.sign(w, kind=w) for w in ws.split()]
    def soql(self):
        k = []
        s = self.words('SELECT')
        if self.lo() == 'count' and self.tx(1) == '(' and self.tx(2) == ')':
            s.append(self.mk('count_expression', [self.ident('function_name'), self.sign('('), self.sign(')')]))
        else:
            s.append(self.selectable())
            while self.tx() == ',':
                s.append(self.sign(','))
                s.append(self.selectable())
        k.append(self.mk('select_clause', s, 'select_clause'))
        fr = self.words('FROM')
        st = self.mk('storage_identifier', [self.dotted()])
        if self.kd() == 'id' and self.lo() not in ('where', 'with', 'group', 'order', 'limit', 'offset', 'all', 'for', 'using'):
            a = [self.sign('AS', kind='AS')] if self.lo() == 'as' else []
            st = self.mk('storage_alias', [st] + a + [self.ident()])
        k.append(self.mk('from_clause', fr + [st], 'from_clause'))
        if self.lo() == 'where':
            k.append(self.mk('where_clause', self.words('WHERE') + self.cond(), 'where_clause'))
        if self.lo() == 'with':
            w = self.words('WITH')
            if self.lo() in ('security_enforced', 'user_mode', 'system_mode'):
                w.append(self.mk('with_type', self.words(self.tx().upper())))
            else:
                self.fail('with')
            k.append(self.mk('with_clause', w, 'with_clause'))
        if self.lo() == 'group':
            g = self.words('GROUP BY') + [self.value()]
            while self.tx() == ',':
                g += [self.sign(','), self.value()]
            if self.lo() == 'having':
                g.append(self.mk('having_clause', self.words('HAVING') + self.cond()))
            k.append(self.mk('group_by_clause', g, 'group_by_clause'))
        if self.lo() == 'order':
            g = self.words('ORDER BY')
            while True:
                o = [self.value()]
                if self.lo() in ('asc', 'desc'):
                    o.append(self.wrapleaf('order_direction'))
                if self.lo() == 'nulls':
                    a = self.sign('NULLS', kind='NULLS'); b = self.sign(self.lo(), kind=self.tx().upper())
                    o.append(self.mk('order_null_direction', [a, b]))
                g.append(self.mk('order_expression', o))
                if self.tx() != ',':
                    break
                g.append(self.sign(','))
            k.append(self.mk('order_by_clause', g, 'order_by_clause'))
        for w in ('limit', 'offset'):
            if self.lo() == w:
                g = self.words(w.upper())
                g.append(self.leaf('int') if self.kd() == 'num' else self.bound())
                k.append(self.mk(w + '_clause', g, w + '_clause'))
        if self.lo() == 'all':
            k.append(self.mk('all_rows_clause', self.words('ALL ROWS'), 'all_rows_clause'))
        while self.lo() == 'for':
            a = self.words('FOR')
            k.append(self.mk('for_clause', a + [self.wrapleaf('for_type')]))
        return self.mk('soql_query_body', k)
    def fields_of(self):
        g = [self.selectable()]
        while self.tx() == ',':
            g += [self.sign(','), self.selectable()]
        return self.mk('selected_fields', g)
    def order_by(self):
        g = self.words('ORDER BY')
        while True:
            o = [self.value()]
            if self.lo() in ('asc', 'desc'):
                o.append(self.wrapleaf('order_direction'))
            g.append(self.mk('order_expression', o))
            if self.tx() != ',':
                break
            g.append(self.sign(','))
        return self.mk('order_by_clause', g)
    def count_clause(self, w):
        g = self.words(w.upper())
        g.append(self.leaf('int') if self.kd() == 'num' else self.bound())
        return self.mk(w + '_clause', g)
    def sosl(self):
        g = self.words('FIND')
        if self.kd() == 'str':
            _, x, s, e = self.t[self.i]
            self.i += 1
            g += [Node("'", False, s, s + 1), Node('term', True, s + 1, e - 1), Node("'", False, e - 1, e)]
        else:
            g.append(self.bound())
        k = [self.mk('find_clause', g)]
        if self.lo() == 'in':
            k.append(self.mk('in_clause', self.words('IN') + [self.wrapleaf('in_type')] + self.words('FIELDS')))
        if self.lo() == 'returning':
            g = self.words('RETURNING')
            while True:
                o = [self.ident()]
                if self.tx() == '(':
                    o += [self.sign('('), self.fields_of()]
                    if self.lo() == 'using':
                        u = self.words('USING')
                        v = self.words('LISTVIEW') + [self.sign('='), self.ident()]
                        o.append(self.mk('using_clause', u + [self.mk('using_listview_clause', v)]))
                    if self.lo() == 'where':
                        o.append(self.mk('where_clause', self.words('WHERE') + self.cond()))
                    if self.lo() == 'order':
                        o.append(self.order_by())
                    for w in ('limit', 'offset'):
                        if self.lo() == w:
                            o.append(self.count_clause(w))
                    o.append(self.sign(')'))
                g.append(self.mk('sobject_return', o))
                if self.tx() != ',':
                    break
                g.append(self.sign(','))
            k.append(self.mk('returning_clause', g))
        while self.lo() == 'with':
            g, w = self.words('WITH'), self.lo()
            if w == 'data':
                x = self.words('DATA CATEGORY')
                while True:
                    y = [self.ident(), self.wrapleaf('with_data_cat_filter_type'), self.ident()]
                    x.append(self.mk('with_data_cat_filter', y))
                    if self.lo() != 'and':
                        break
                    x += self.words('AND')
                x = self.mk('with_data_cat_expression', x)
            elif w == 'snippet':
                x = self.words('SNIPPET')
                if self.tx() == '(':
                    x += [self.sign('(')] + self.words('TARGET_LENGTH') + [self.sign('='), self.leaf('int'), self.sign(')')]
                x = self.mk('with_snippet_expression', x)
            elif w == 'highlight':
                x = self.wrapleaf('with_highlight')
            elif w == 'network':
                a = self.words('NETWORK')
                if self.lo() == 'in':
                    o = self.wrapleaf('set_comparison_operator')
                    r = [self.sign('(')]
                    while self.tx() != ')':
                        if r[1:]:
                            r.append(self.sign(','))
                        r.append(self.literal())
                    r = self.mk('comparable_list', r + [self.sign(')')])
                else:
                    o, r = self.wrapleaf('value_comparison_operator'), self.literal()
                x = self.mk('with_network_expression', a + [o, r])
            else:
                n = {'division': 'with_division_expression', 'metadata': 'with_metadata_expression',
                     'pricebookid': 'with_pricebook_expression', 'spell_correction': 'with_spell_correction_expression'}[w]
                a = self.words(self.tx()) + [self.sign('=')]
                x = self.mk(n, a + [self.literal()])
            k.append(self.mk('with_clause', g + [self.mk('with_type', [x])]))
        if self.lo() == 'using':
            u = self.words('USING')
            n = 'using_%s_search' % self.lo()
            k.append(self.mk('sosl_using_clause', u + [self.mk(n, self.words(self.tx().upper() + ' SEARCH'))]))
        if self.lo() == 'limit':
            k.append(self.count_clause('limit'))
        if self.lo() == 'update':
            g = self.words('UPDATE') + [self.wrapleaf('update_type')]
            while self.tx() == ',':
                g += [self.sign(','), self.wrapleaf('update_type')]
            k.append(self.mk('update_clause', g))
        return self.mk('sosl_query_body', k)
    def dotted(self):
        a = self.ident()
        if self.tx() != '.':
            return a
        k = [a]
        while self.tx() == '.':
            k += [self.sign('.'), self.ident()]
        return self.mk('dotted_identifier', k)
    def value(self):
        if self.kd() == 'id' and self.tx(1) == '(':
            k = [self.ident('function_name'), self.sign('(')]
            while self.tx() != ')':
                if k[2:]:
                    k.append(self.sign(','))
                if self.kd() == 'str':
                    k.append(self.leaf('string_literal'))
                elif self.lo() == 'geolocation':
                    g = [self.ident(), self.sign('(')]
                    g += [self.decimal(), self.sign(','), self.decimal(), self.sign(')')]
                    k.append(self.mk('geo_location_type', g))
                else:
                    k.append(self.value())
            k.append(self.sign(')'))
            return self.mk('function_expression', k)
        return self.mk('field_identifier', [self.dotted()])
    def decimal(self):
        s = self.t[self.i][2]
        if self.tx() == '-':
            self.i += 1
        self.i += 1
        return Node('decimal', True, s, self.t[self.i - 1][3])
    def selectable(self):
        if self.tx() == '(':
            return self.mk('subquery', [self.sign('('), self.soql(), self.sign(')')])
        if self.lo() == 'typeof':
            self.fail('typeof')
        if self.lo() == 'fields' and self.tx(1) == '(':
            return self.mk('fields_expression', self.words('FIELDS') + [self.sign('('), self.wrapleaf('fields_type'), self.sign(')')])
        v = self.value()
        if self.kd() == 'id' and self.lo() not in ('from', 'where', 'limit', 'order', 'using', 'offset'):
            return self.mk('alias_expression', [v, self.ident()])
        return v
    def bound(self):
        return self.mk('bound_apex_expression', [self.sign(':'), self.expr()])
    # conditions: lists of children
    def cond(self):
        if self.lo() == 'not' :
            return [self.not_()]
        a = self.cond1()
        w = self.lo()
        if w in ('and', 'or'):
            k = a
            while self.lo() == w:
                k += self.words(w.upper())
                k += [self.not_()] if self.lo() == 'not' else self.cond1()
            if self.lo() in ('and', 'or'):
                self.fail('mixed condition')
            return [self.mk(w + '_expression', k)]
        return a
    def not_(self):
        return self.mk('not_expression', self.words('NOT') + self.cond1())
    def cond1(self):
        if self.tx() == '(':
            return [self.sign('(')] + self.cond() + [self.sign(')')]
        v = self.value()
        if self.lo() in ('in', 'includes', 'excludes') or self.lo() == 'not':
            if self.lo() == 'not':
                a = self.sign('NOT', kind='NOT'); b = self.sign('IN', kind='IN')
                o = self.mk('set_comparison_operator', [a, b])
            else:
                o = self.wrapleaf('set_comparison_operator')
            if self.tx() == ':':
                r = self.bound()
            elif self.tx() == '(' and self.lo(1) == 'select':
                r = self.mk('subquery', [self.sign('('), self.soql(), self.sign(')')])
            else:
                r = [self.sign('(')]
                while self.tx() != ')':
                    if r[1:]:
                        r.append(self.sign(','))
                    r.append(self.literal())
                r = self.mk('comparable_list', r + [self.sign(')')])
            return [self.mk('comparison_expression', [v, o, r])]
        if self.lo() not in ('=', '!=', '<>', '<', '>', '<=', '>=', 'like'):
            self.fail('comparison')
        o = self.wrapleaf('value_comparison_operator')
        return [self.mk('comparison_expression', [v, o, self.literal()])]
    def literal(self):
        k, w = self.kd(), self.lo()
        if w == ':':
            return self.bound()
        if k == 'str':
            return self.leaf('string_literal')
        if k == 'date':
            return self.leaf('date' if len(self.tx()) == 10 else 'date_time')
        if k == 'num':
            return self.leaf('decimal' if '.' in w else 'int')
        if w == '-':
            return self.decimal()
        if w in ('true', 'false'):
            return self.wrapleaf('boolean')
        if w == 'null':
            return self.leaf('null_literal')
        if k == 'id':
            d = self.leaf('date_literal')
            if self.tx() == ':' and self.kd(1) == 'num':
                return self.mk('date_literal_with_param', [d, self.sign(':'), self.leaf('int')])
            return d
        self.fail('literal')

def place(n, c):
    """put the comment c into the smallest node around it"""
    for k in n.kids:
        if not k.extra and k.kids and k.s < c.s and c.e < k.e:
            return place(k, c)
    n.kids.append(c)
    n.kids.sort(key=lambda k: k.s)

def parse(src):
    return P(src).file()

if __name__ == '__main__':
    src = open(sys.argv[1]).read()
    parse(src).show(src)
