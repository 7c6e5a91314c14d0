def q(s):
    """a Python string as a Coq term of type str"""
    parts=[];cur=""
    for ch in s:
        if 32<=ord(ch)<127: cur+=ch
        else:
            if cur: parts.append('L "%s"'%cur.replace('"','""')); cur=""
            parts.append("[%d]"%ord(ch))
    if cur: parts.append('L "%s"'%cur.replace('"','""'))
    return "("+(" ++ ".join(parts) or "[]")+")"
