*.aux
*.glob
*.vo
*.vok
*.vos
.Makefile.d
.lia.cache
.nia.cache
Makefile
Makefile.conf
__pycache__
*.cache
