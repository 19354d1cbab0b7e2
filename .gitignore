*.vo
*.vok
*.vos
*.glob
*.aux
.lia.cache
.nia.cache
.coqdeps.d
.Makefile.d
Makefile
Makefile.conf
__pycache__
